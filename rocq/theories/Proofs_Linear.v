(** The training data of a linear model. *)
From Coq Require Import Permutation.
From Verif Require Import Py Num Model_Summary Model_Features Spec_Features Proofs_Diagnostic Proofs_Structure Proofs_Frames Model_Splitter Spec_Splitter Proofs_Tab Proofs_Splitter Model_Linear Spec_Linear.

Lemma cells_stripped f (b : bool) m : (if b then rename strip_hash (map_cells f m) else map_cells f m) = map_cells f (stripped b m).
Proof. destruct b; reflexivity. Qed.

Section Create.
  Variables (scale : list Q -> Q) (c : settings) (fm tm : matrix) (e : experiment).
  Let M := stripped (l_homogenize c) fm.
  Let Y := stripped (l_homogenize c) tm.
  Hypothesis PM : proper M.
  Hypothesis PY : proper Y.
  Hypothesis OK : create scale c fm tm = Ok e.

  Definition first_samples : list string := filter (sample_enoughb c M) (labels M).
  Definition filled (fill : string -> cell) (s n : string) : cell := fillna (fill n) (cleaned M s n).
  Definition last_samples : list string := filter (training_targetsb c Y) first_samples.

  Lemma columns_nodup : NoDup (training_columns c M).
  Proof. apply nodup_filter, PM. Qed.
  Lemma create_spec :
    exists fill,
      (l_impute c = "none"%string -> forall n, fill n = NaN) /\
      (l_impute c <> "none"%string -> forall n, In n (training_columns c M) -> filler (l_impute c) (map (fun s => cleaned M s n) first_samples) = Ok (fill n)) /\
      e_X e = tab (training_columns c M) last_samples (filled fill) /\ e_y e = tab (l_targets c) last_samples (cleaned Y) /\
      e_labels e = training_columns c M /\ e_settings e = c /\ e_features e = fm /\ e_target_matrix e = tm /\ e_model e = None /\
      fit_scaler scale (tab (training_columns c M) first_samples (filled fill)) = Ok (e_scaler e) /\
      (forall t, In t (l_targets c) -> In t (m_columns Y)) /\ (forall s, In s first_samples -> In s (labels Y)) /\
      (drop_nan c = false -> last_samples = first_samples) /\ (2 <= length last_samples)%nat /\ (1 <= length (training_columns c M))%nat /\
      In (model_name c) ["elasticnet"; "ridge"; "lasso"]%string /\ l_targets c <> [] /\ (model_name c <> "elasticnet"%string -> length (l_targets c) = 1%nat).
  Proof.
    pose proof OK as H. unfold create in H.
    destruct (str_in (model_name c) _) eqn:MN; [|discriminate]. apply str_in_iff in MN. cbn [negb] in H.
    destruct (length (l_targets c) <? 1)%nat eqn:TL; [discriminate|]. apply Nat.ltb_ge in TL. cbv zeta in H.
    rewrite !cells_stripped in H. fold M Y in H.
    destruct (negb _) eqn:SZ in H; [discriminate|]. clear SZ.
    pose proof (proper_tab M PM) as TM. pose proof (proper_tab Y PY) as TY. destruct PM as (NC & NL & _). destruct PY as (NCY & NLY & _).
    assert (X0 : map_cells no_inf M = tab (m_columns M) (labels M) (cleaned M)).
    { rewrite TM at 1. rewrite tab_cells. apply tab_ext. intros. symmetry. apply cleaned_value. }
    assert (Y0 : map_cells no_inf Y = tab (m_columns Y) (labels Y) (cleaned Y)).
    { rewrite TY at 1. rewrite tab_cells. apply tab_ext. intros. symmetry. apply cleaned_value. }
    rewrite X0, Y0 in H. rewrite !count_labels, !tab_labels in H. rewrite tab_drop_columns in H.
    change (filter (fun n => Qle_bool (sample_thr c * count (labels M)) (count (filter (fun s => nonnan (cleaned M s n)) (labels M)))) (m_columns M)) with (training_columns c M) in H.
    rewrite tab_drop_rows in H. cbn [m_columns tab] in H. fold (tab (training_columns c M)) in H.
    change {| m_columns := ?a; m_rows := map (fun s => (s, map (?v s) ?a)) ?l |} with (tab a l v) in H.
    change (filter (fun s => Qle_bool (sample_thr c * count (training_columns c M)) (count (filter (fun n => nonnan (cleaned M s n)) (training_columns c M)))) (labels M)) with first_samples in H.
    destruct (impute _ _) as [Xi|] eqn:IM; cbn [bind] in H; [|discriminate].
    destruct (tab_impute _ _ _ _ _ columns_nodup IM) as (fill & -> & FN & FF). change (fun s n => fillna (fill n) (cleaned M s n)) with (filled fill) in H.
    exists fill. split; [exact FN|]. split; [exact FF|]. cbn [m_columns tab] in H. fold (tab (training_columns c M)) in H.
    change {| m_columns := ?a; m_rows := map (fun s => (s, map (?v s) ?a)) ?l |} with (tab a l v) in H.
    destruct (_ || _) eqn:SH in H; [discriminate|]. apply orb_false_iff in SH. destruct SH as [_ SC]. apply Nat.ltb_ge in SC.
    destruct (existsb _ (l_targets c)) eqn:MT in H; [discriminate|].
    assert (IT : forall t, In t (l_targets c) -> In t (m_columns Y)).
    { intros t T. apply str_in_iff. destruct (str_in t (m_columns Y)) eqn:E; [reflexivity|]. exfalso.
      assert (K : existsb (fun t => negb (str_in t (m_columns Y))) (l_targets c) = true) by (apply existsb_exists; exists t; rewrite E; auto). congruence. }
    rewrite tab_select in H by assumption. rewrite !tab_labels in H.
    destruct (existsb _ first_samples) eqn:ML in H; [discriminate|].
    assert (IL : forall s, In s first_samples -> In s (labels Y)).
    { intros s S. apply str_in_iff. destruct (str_in s (labels Y)) eqn:E; [reflexivity|]. exfalso.
      assert (K : existsb (fun s => negb (str_in s (labels Y))) first_samples = true) by (apply existsb_exists; exists s; rewrite E; auto). congruence. }
    rewrite tab_loc in H by assumption.
    match type of H with (let! _ := ?e in _) = _ => destruct e as [Xy|] eqn:TE end; cbn [bind] in H; [|discriminate].
    assert (TS : Xy = tab (l_targets c) last_samples (cleaned Y) /\ (drop_nan c = false -> last_samples = first_samples)).
    { rewrite tab_nan in TE. unfold last_samples.
      assert (TT : forall s, training_targetsb c Y s = negb (existsb (fun n => is_nan (cleaned Y s n)) (l_targets c))).
      { intro s. unfold training_targetsb, there. clear. induction (l_targets c) as [|t ts IH]; cbn; [reflexivity|]. rewrite IH. destruct (is_nan (cleaned Y s t)); reflexivity. }
      destruct (existsb _ first_samples) eqn:EN in TE.
      - destruct (drop_nan c); [|discriminate]. injection TE as <-. split; [|discriminate]. unfold tab. cbn [m_columns m_rows]. f_equal. rewrite filter_map. f_equal. apply filter_ext. intro s.
        rewrite TT. f_equal. cbn [snd]. clear. induction (l_targets c) as [|t ts IH]; cbn; [reflexivity|]. rewrite IH. reflexivity.
      - injection TE as <-. assert (E : filter (training_targetsb c Y) first_samples = first_samples).
        { apply filter_true. rewrite <- EN. clear - TT. induction first_samples as [|s l IH]; cbn; [reflexivity|]. rewrite IH, TT, negb_involutive. reflexivity. }
        rewrite E. auto. }
    destruct TS as [-> TN]. clear TE. rewrite tab_labels, tab_rows in H.
    destruct (length last_samples <? 2)%nat eqn:L2; [discriminate|]. apply Nat.ltb_ge in L2.
    assert (N1 : NoDup first_samples) by (apply nodup_filter, NL).
    rewrite tab_loc in H; [|exact N1|intros s S; apply filter_In in S; apply S].
    destruct (_ && _) eqn:MU in H; [discriminate|].
    destruct (fit_scaler scale _) as [sc|] eqn:FS in H; cbn [bind] in H; [|discriminate]. injection H as <-. cbn [e_X e_y e_labels e_settings e_features e_target_matrix e_model e_scaler m_columns tab].
    repeat split; try assumption; try reflexivity.
    - intro E. rewrite E in TL. cbn in TL. lia.
    - intro NE. apply andb_false_iff in MU. destruct MU as [MU|MU]; [apply Nat.ltb_ge in MU; lia|]. apply negb_false_iff, String.eqb_eq in MU. contradiction.
  Qed.
End Create.

(** ** Filling with numbers *)
Lemma numbers_spec l q : numbers l = Ok q -> (forall x, In (Text x) l -> False) /\ ((exists x, In x l /\ number x <> None) -> q <> []).
Proof.
  revert q. induction l as [|x l IH]; intros q H; cbn in H.
  - split; [intros ? []|]. intros (x & [] & _).
  - destruct x as [x| |b|b|t]; try discriminate; try (destruct (numbers l) as [q'|] eqn:E; cbn [bind] in H; [|discriminate]).
    all: try (injection H as <-); destruct (IH _ eq_refl) as [A B] || destruct (IH _ H) as [A B]; split;
      [intros y [Y|Y]; [discriminate Y|exact (A y Y)]|try (intros _ K; discriminate K)].
    all: intros (y & [Y|Y] & N); [subst y; cbn in N; congruence|apply B; exists y; auto].
Qed.
Lemma filler_number method l f : filler method l = Ok f -> (exists x, In x l /\ is_nan x = false /\ (forall b, x <> Inf b)) -> exists q, f = Number q.
Proof.
  unfold filler. destruct (numbers l) as [q|] eqn:E; cbn [bind]; [|discriminate]. intros [= <-] (x & X & N & I). destruct (numbers_spec _ _ E) as [T NE].
  assert (Q0 : q <> []). { apply NE. exists x. split; [exact X|]. destruct x; cbn in *; try congruence. - destruct (T s X). }
  destruct q as [|q0 q]; [contradiction|].
  destruct (String.eqb method "median").
  - unfold median. assert (D : forall l : list Q, all_some (map Some l) = Some l) by (induction l0 as [|a l0 IH]; cbn; [reflexivity|rewrite IH; reflexivity]). rewrite D. cbv zeta.
    assert (LI : forall a l, length (insert_q a l) = S (length l)) by (intros a l0; induction l0 as [|b l0 IH]; cbn; [reflexivity|]; destruct (Qle_bool a b); cbn; [reflexivity|rewrite IH; reflexivity]).
    assert (L : length (sort_q (q0 :: q)) = S (length q)) by (cbn; rewrite LI; f_equal; clear - LI; induction q as [|a q IH]; cbn; [reflexivity|rewrite LI, IH; reflexivity]).
    destruct (nth_error (sort_q (q0 :: q)) (length (sort_q (q0 :: q)) / 2)) as [a|] eqn:A.
    + destruct (nth_error (sort_q (q0 :: q)) ((length (sort_q (q0 :: q)) - 1) / 2)) as [b|] eqn:B; [eauto|].
      exfalso. apply nth_error_None in B. rewrite L in B. pose proof (Nat.div_le_upper_bound (S (length q) - 1) 2 (length q)). lia.
    + exfalso. apply nth_error_None in A. rewrite L in A. pose proof (Nat.div_lt (S (length q)) 2). lia.
  - unfold mean. cbn [map dropna]. eauto.
Qed.

(** ** Predictions *)
Lemma dot_weighted ws : forall sc xs, dot ws (map (fun p => (snd p - fst (fst p)) / snd (fst p)) (combine sc xs)) = weighted ws sc xs.
Proof.
  unfold dot. induction ws as [|w ws IH]; intros [|[mu d] sc] [|x xs]; cbn; try reflexivity. specialize (IH sc xs). cbn in IH. rewrite IH. reflexivity.
Qed.
Lemma scaled_spec sc row xs : scaled sc row = Ok xs -> length sc = length row ->
  exists sc' ns, sc = map Some sc' /\ Forall2 (fun c x => number c = Some x) row ns /\ xs = map (fun p => (snd p - fst (fst p)) / snd (fst p)) (combine sc' ns).
Proof.
  unfold scaled. revert row xs. induction sc as [|o sc IH]; intros [|c row] xs H L; try discriminate L; cbn in H.
  - injection H as <-. exists [], []. repeat split. constructor.
  - destruct (finite c) as [x|] eqn:F; cbn [bind] in H; [|discriminate]. destruct o as [[mu d]|]; cbn [bind] in H; [|discriminate].
    destruct (mapM _ (combine sc row)) as [ys|] eqn:E; cbn [bind] in H; [|discriminate]. injection H as <-. injection L as L. destruct (IH row ys E L) as (sc' & ns & -> & F2 & ->).
    exists ((mu, d) :: sc'), (x :: ns). split; [reflexivity|]. split; [|reflexivity]. constructor; [|exact F2]. destruct c; cbn in F |- *; congruence.
Qed.

Section Predict.
  Variables (e : experiment) (h : option bool) (m m' p : matrix) (dropped : list string) (l : linear).
  Let b := match h with Some b => b | None => l_homogenize (e_settings e) end.
  Let M := stripped b m.
  Hypothesis PM : proper M.
  Hypothesis NDL : NoDup (e_labels e).
  Hypothesis LSC : length (e_scaler e) = length (e_labels e).
  Hypothesis ML : e_model e = Some l.
  Hypothesis OK : predict e h m = (m', Ok (p, dropped)).

  Definition predictable (s : string) : bool :=
    Qle_bool (predict_thr (e_settings e) * count (m_columns M)) (count (filter (fun n => negb (is_nan (value M s n))) (e_labels e))).
  Definition predicted : list string := filter predictable (labels M).
  Lemma predict_spec : exists fill,
    (l_impute (e_settings e) = "none"%string -> forall n, fill n = NaN) /\
    (l_impute (e_settings e) <> "none"%string -> forall n, In n (e_labels e) -> filler (l_impute (e_settings e)) (map (fun s => value M s n) predicted) = Ok (fill n)) /\
    m' = M /\ (forall n, In n (e_labels e) -> In n (m_columns M)) /\ m_columns p = l_targets (e_settings e) /\ predicted <> [] /\
    (exists sc, e_scaler e = map Some sc /\
     Forall2 (fun s r => fst r = s /\ exists ns, Forall2 (fun n x => number (fillna (fill n) (value M s n)) = Some x) (e_labels e) ns /\
                       snd r = map (fun w => Number (weighted (fst w) sc ns + snd w)) (combine (coefs l) (intercepts l))) predicted (m_rows p)) /\
    dropped = (if Nat.eqb (length (labels M)) (length predicted) then [] else filter (fun s => negb (str_in s (e_labels e))) (labels M)).
  Proof.
    pose proof OK as H. unfold predict in H. rewrite ML in H. fold b in H. fold (stripped b m) in H. fold M in H. injection H as <- H.
    destruct (existsb _ (e_labels e)) eqn:MF in H; [discriminate|].
    assert (IN : forall n, In n (e_labels e) -> In n (m_columns M)).
    { intros n N. apply str_in_iff. destruct (str_in n (m_columns M)) eqn:E; [reflexivity|]. exfalso.
      assert (K : existsb (fun t => negb (str_in t (m_columns M))) (e_labels e) = true) by (apply existsb_exists; exists n; rewrite E; auto). congruence. }
    pose proof (proper_tab M PM) as TM. destruct PM as (NC & NL & _). cbv zeta in H.
    assert (S0 : select (e_labels e) M = tab (e_labels e) (labels M) (value M)) by (rewrite TM at 1; apply tab_select; assumption).
    rewrite S0, tab_drop_rows in H.
    change (filter (fun s => Qle_bool (predict_thr (e_settings e) * count (m_columns M)) (count (filter (fun n => nonnan (value M s n)) (e_labels e)))) (labels M)) with predicted in H.
    destruct (impute _ _) as [Xi|] eqn:IM; cbn [bind] in H; [|discriminate].
    destruct (tab_impute _ _ _ _ _ NDL IM) as (fill & -> & FN & FF). exists fill. split; [exact FN|]. split; [exact FF|]. split; [reflexivity|]. split; [exact IN|].
    rewrite tab_rows in H. cbn [m_columns tab] in H. change (length (m_rows M)) with (length (m_rows M)) in H.
    replace (length (m_rows M)) with (length (labels M)) in H by apply map_length.
    destruct (length predicted =? 0)%nat eqn:LZ in H; [discriminate|].
    destruct (mapM _ _) as [rows|] eqn:RM in H; cbn [bind] in H; [|discriminate]. injection H as <- <-. cbn [m_columns m_rows].
    assert (NE : predicted <> []) by (intro E; rewrite E in LZ; discriminate).
    split; [reflexivity|]. split; [exact NE|].
    assert (DR : (if negb (Nat.eqb (length (labels M)) (length predicted)) then filter (fun s => negb (str_in s (e_labels e))) (labels M) else []) =
                 (if Nat.eqb (length (labels M)) (length predicted) then [] else filter (fun s => negb (str_in s (e_labels e))) (labels M))) by (destruct (Nat.eqb _ _); reflexivity).
    split; [|exact DR]. clear DR.
    apply mapM_ok in RM. cbn [m_rows tab] in RM.
    assert (F : Forall2 (fun s r => exists x, scaled (e_scaler e) (map (fun n => fillna (fill n) (value M s n)) (e_labels e)) = Ok x /\ r = (s, map Number (linear_predict l x))) predicted rows).
    { clear - RM. revert rows RM. induction predicted as [|s ls IH]; intros rows RM; cbn [map] in RM; inversion RM as [|? ? ? ? A B]; subst; constructor; [|apply IH, B].
      cbn [fst snd] in A. destruct (scaled _ _) as [x|] eqn:E; cbn [bind] in A; [|discriminate]. injection A as <-. eauto. }
    assert (SC : exists sc, e_scaler e = map Some sc).
    { destruct predicted as [|s ls] eqn:PE; [contradiction|]. inversion F as [|? ? ? ? A B]; subst. destruct A as (x & A & _).
      destruct (scaled_spec _ _ _ A) as (sc & _ & E & _); [rewrite map_length; exact LSC|]. eauto. }
    destruct SC as [sc SC]. exists sc. split; [exact SC|]. clear RM LZ NE. revert F. generalize predicted rows. intro ps. induction ps as [|s ls IH]; intros rs F; inversion F as [|? r ? ? A B]; subst; constructor; [|apply IH, B].
    destruct A as (x & A & ->). split; [reflexivity|]. cbn [snd]. destruct (scaled_spec _ _ _ A) as (sc' & ns & E & F2 & ->); [rewrite map_length; exact LSC|].
    assert (sc' = sc) as ->. { rewrite SC in E. clear - E. revert sc' E. induction sc as [|q sc IH]; intros [|q' sc'] E; try discriminate; [reflexivity|]. injection E as <- E. f_equal. apply IH, E. }
    exists ns. split.
    - clear - F2. revert ns F2. induction (e_labels e) as [|n ls IH]; intros ns F2; inversion F2; subst; constructor; auto.
    - unfold linear_predict. rewrite map_map. apply map_ext. intros [w i]. cbn [fst snd]. rewrite dot_weighted. reflexivity.
  Qed.
End Predict.

Lemma fit_scaler_length scale m sc : fit_scaler scale m = Ok sc -> length sc = length (m_columns m).
Proof. unfold fit_scaler. intro H. apply mapM_ok, F2_length in H. rewrite seq_length in H. symmetry. exact H. Qed.
Lemma F2_at {A B} (P : A -> B -> Prop) l m : Forall2 P l m -> forall i x, nth_error l i = Some x -> exists y, nth_error m i = Some y /\ P x y.
Proof. induction 1; intros [|i] z; simpl; intro E; try discriminate; [injection E as <-; eauto|auto]. Qed.
