(** Training and using linear models (C50, C51, C81). *)
From Coq Require Import Permutation.
From Verif Require Import Py Num Model_Summary Model_Features Spec_Features Proofs_Diagnostic Proofs_Structure Proofs_Frames Model_Splitter Spec_Splitter Proofs_Tab Proofs_Splitter Model_Linear Spec_Linear Proofs_Linear.

(** ** C50: the training data *)
Section Training.
  Variables (scale : list Q -> Q) (c : settings) (fm tm : matrix) (e : experiment).
  Let M := stripped (l_homogenize c) fm.
  Let Y := stripped (l_homogenize c) tm.
  Hypothesis PM : proper M.
  Hypothesis PY : proper Y.
  Hypothesis OK : create scale c fm tm = Ok e.

  (** Features and targets have the same samples, each once, and at least two; there is a feature. *)
  Theorem C50_same_samples : labels (e_X e) = labels (e_y e) /\ NoDup (labels (e_X e)) /\ (2 <= length (labels (e_X e)))%nat /\ e_labels e <> [] /\ m_columns (e_X e) = e_labels e /\ m_columns (e_y e) = l_targets c.
  Proof.
    destruct (create_spec scale c fm tm e PM PY OK) as (fill & _ & _ & -> & -> & -> & _ & _ & _ & _ & _ & _ & _ & _ & L & LC & _). rewrite !tab_labels.
    repeat split; try assumption; try reflexivity; [apply nodup_filter, nodup_filter, PM|]. intro E. rewrite E in LC. cbn in LC. lia.
  Qed.
  (** A feature is kept exactly when it is present in enough samples; the threshold that is applied is
      the one for samples. *)
  Theorem C50_features_partial n : In n (e_labels e) <-> In n (m_columns M) /\ present_in M (sample_thr c) n.
  Proof.
    destruct (create_spec scale c fm tm e PM PY OK) as (fill & _ & _ & _ & _ & -> & _). unfold training_columns. rewrite filter_In, Qle_bool_iff. reflexivity.
  Qed.
  (** A sample is kept exactly when it has enough of the kept features and all targets. *)
  Theorem C50_samples s : In s (labels (e_X e)) <-> In s (labels M) /\ sample_enough c M s /\ training_targets c Y s.
  Proof.
    destruct (create_spec scale c fm tm e PM PY OK) as (fill & _ & _ & -> & _). rewrite tab_labels. unfold last_samples, first_samples. fold M Y. rewrite !filter_In.
    unfold sample_enough, sample_enoughb, training_targets, training_targetsb. rewrite Qle_bool_iff, forallb_forall. tauto.
  Qed.
  (** Without dropping of incomplete targets, an incomplete target is an error: no sample is lost for it. *)
  Theorem C50_no_target_lost s : drop_nan c = false -> In s (labels M) -> sample_enough c M s -> training_targets c Y s.
  Proof.
    intros D S E. destruct (create_spec scale c fm tm e PM PY OK) as (fill & _ & _ & _ & _ & _ & _ & _ & _ & _ & _ & _ & _ & TN & _). specialize (TN D).
    assert (I : In s (first_samples c fm)) by (apply filter_In; split; [exact S|]; apply Qle_bool_iff, E). rewrite <- TN in I. apply filter_In in I. destruct I as [_ I].
    unfold training_targetsb in I. rewrite forallb_forall in I. exact I.
  Qed.
  (** Values are those of the matrices. *)
  Theorem C50_values s n : In s (labels (e_X e)) ->
    (In n (e_labels e) -> there M s n = true -> entry (e_X e) s n = Some (cleaned M s n)) /\
    (In n (l_targets c) -> entry (e_y e) s n = Some (cleaned Y s n)).
  Proof.
    destruct (create_spec scale c fm tm e PM PY OK) as (fill & _ & _ & -> & -> & -> & _). rewrite tab_labels. intro S. split; intro N.
    - intro T. rewrite tab_entry by assumption. unfold filled. fold M. unfold fillna. unfold there in T. apply negb_true_iff in T. rewrite T. reflexivity.
    - apply tab_entry; assumption.
  Qed.
  (** A missing value is the median (or mean) over the samples with enough features. *)
  Theorem C50_imputed s n : In s (labels (e_X e)) -> In n (e_labels e) -> there M s n = false -> l_impute c <> "none"%string ->
    exists x, filler (l_impute c) (map (fun t => cleaned M t n) (filter (sample_enoughb c M) (labels M))) = Ok x /\ entry (e_X e) s n = Some x.
  Proof.
    destruct (create_spec scale c fm tm e PM PY OK) as (fill & _ & FF & -> & _ & -> & _). rewrite tab_labels. intros S N T I. exists (fill n). split; [exact (FF I n N)|].
    rewrite tab_entry by assumption. unfold filled. fold M. unfold fillna. unfold there in T. apply negb_false_iff in T. rewrite T. reflexivity.
  Qed.
  (** With imputation no value is missing in a feature that some sample with enough features has. *)
  Theorem C50_no_missing_partial s n : In s (labels (e_X e)) -> In n (e_labels e) -> l_impute c <> "none"%string ->
    (exists t, In t (labels M) /\ sample_enough c M t /\ there M t n = true) -> exists x, entry (e_X e) s n = Some x /\ is_nan x = false.
  Proof.
    intros S N I (t & T & E & H). destruct (there M s n) eqn:TH.
    - exists (cleaned M s n). split; [apply (C50_values s n S); assumption|]. unfold there in TH. apply negb_true_iff, TH.
    - destruct (C50_imputed s n S N TH I) as (x & F & EX). exists x. split; [exact EX|].
      destruct (filler_number _ _ _ F) as [q ->]; [|reflexivity]. exists (cleaned M t n). split; [|split].
      + apply in_map_iff. exists t. split; [reflexivity|]. apply filter_In. split; [exact T|]. apply Qle_bool_iff, E.
      + unfold there in H. apply negb_true_iff, H.
      + intros b K. unfold cleaned in K. destruct (entry M t n) as [v|]; [destruct v|]; discriminate.
  Qed.
  (** What is asked for is supported. *)
  Theorem C50_supported : In (model_name c) ["elasticnet"; "ridge"; "lasso"]%string /\ l_targets c <> [] /\ ((2 <= length (l_targets c))%nat -> model_name c = "elasticnet"%string) /\
    forall t, In t (l_targets c) -> In t (m_columns Y).
  Proof.
    destruct (create_spec scale c fm tm e PM PY OK) as (fill & _ & _ & _ & _ & _ & _ & _ & _ & _ & _ & IT & _ & _ & _ & _ & MN & TN & MU). repeat split; try assumption.
    intro L. destruct (string_dec (model_name c) "elasticnet") as [E|E]; [exact E|]. specialize (MU E). lia.
  Qed.
  (** Training changes only the scaling and the coefficients. *)
  Theorem C50_train fit Xy e' : train scale fit e Xy = Ok e' -> e_settings e' = c /\ e_X e' = e_X e /\ e_y e' = e_y e /\ e_labels e' = e_labels e /\ e_model e = None /\ e_model e' <> None.
  Proof.
    intro T. destruct (create_spec scale c fm tm e PM PY OK) as (fill & _ & _ & _ & _ & _ & ES & _ & _ & EM & _). unfold train in T.
    destruct Xy as [[X y]|]; repeat (match type of T with (let! _ := ?r in _) = _ => destruct r; cbn [bind] in T; [|discriminate] end); injection T as <-; cbn; repeat split; try assumption; try discriminate.
  Qed.
  (** The model is fitted, with the settings asked for, to the standardised rows of the data given (all of
      the training data if none is): every number less the mean of its column in that data, divided by the
      scale of that column; the means and scales kept for predictions are these. *)
  Theorem C50_trained_on fit Xy e' : train scale fit e Xy = Ok e' ->
    let X := match Xy with Some p => fst p | None => e_X e end in
    let y := match Xy with Some p => snd p | None => e_y e end in
    m_rows X <> [] -> Forall (fun r => length (snd r) = length (m_columns X)) (m_rows X) ->
    exists sc xs ys l, e_scaler e' = map Some sc /\ e_model e' = Some l /\ fit c xs ys = Ok l /\ length sc = length (m_columns X) /\
      Forall2 (fun r v => exists ns, Forall2 (fun a x => number a = Some x) (snd r) ns /\ v = map (fun p => (snd p - fst (fst p)) / snd (fst p)) (combine sc ns)) (m_rows X) xs /\
      Forall2 (fun r v => Forall2 (fun a x => number a = Some x) (snd r) v) (m_rows y) ys /\
      forall j p, nth_error sc j = Some p -> exists ns, Forall2 (fun r x => exists a, nth_error (snd r) j = Some a /\ number a = Some x) (m_rows X) ns /\
        p = (qsum ns / inject_Z (Z.of_nat (length ns)), scale ns).
  Proof.
    intros T X y NE LN. destruct (create_spec scale c fm tm e PM PY OK) as (fill & _ & _ & _ & _ & _ & ES & _).
    assert (T' : (let! sc := fit_scaler scale X in let! xs := mapM (fun r => scaled sc (snd r)) (m_rows X) in let! ys := mapM (fun r => mapM finite (snd r)) (m_rows y) in
      let! l := fit (e_settings e) xs ys in Ok (sc, l, (xs, ys))) = Ok (e_scaler e', match e_model e' with Some l => l | None => {| coefs := []; intercepts := [] |} end, (match fit_scaler scale X with Ok sc => match mapM (fun r => scaled sc (snd r)) (m_rows X) with Ok xs => xs | _ => [] end | _ => [] end, match mapM (fun r => mapM finite (snd r)) (m_rows y) with Ok ys => ys | _ => [] end)) /\ e_model e' <> None).
    { unfold train in T. subst X y. destruct Xy as [[X y]|]; cbn [fst snd] in *;
        repeat (match type of T with (let! _ := ?r in _) = _ => destruct r; cbn [bind] in T |- *; [|discriminate] end); injection T as <-; cbn; split; [reflexivity|discriminate|reflexivity|discriminate]. }
    clear T. destruct T' as [T NM]. destruct (e_model e') as [l|]; [clear NM|contradiction].
    destruct (fit_scaler scale X) as [sc|] eqn:FS; cbn [bind] in T; [|discriminate]. destruct (mapM (fun r => scaled sc (snd r)) (m_rows X)) as [xs|] eqn:XS; cbn [bind] in T; [|discriminate].
    destruct (mapM (fun r => mapM finite (snd r)) (m_rows y)) as [ys|] eqn:YS; cbn [bind] in T; [|discriminate]. destruct (fit (e_settings e) xs ys) as [l'|] eqn:FT; cbn [bind] in T; [|discriminate].
    injection T as <- <-. rewrite ES in FT. apply mapM_ok in XS, YS. pose proof (fit_scaler_length _ _ _ FS) as LS.
    assert (SC : exists sc', sc = map Some sc').
    { destruct XS as [|r v rs vs SR _]; [contradiction|]. inversion LN; subst. destruct (scaled_spec sc (snd r) v SR) as (sc' & _ & -> & _); [congruence|]. exists sc'. reflexivity. }
    destruct SC as [sc' ->]. exists sc', xs, ys, l'. split; [reflexivity|]. split; [reflexivity|]. split; [exact FT|]. split; [rewrite map_length in LS; exact LS|].
    assert (EACH : Forall2 (fun r v => exists ns, Forall2 (fun a x => number a = Some x) (snd r) ns /\ v = map (fun p => (snd p - fst (fst p)) / snd (fst p)) (combine sc' ns)) (m_rows X) xs).
    { clear - XS LN LS. revert LN. generalize (m_columns X) LS. intros cs LS'. induction XS as [|r v rs vs SR _ IH]; intro LN; [constructor|]. inversion LN; subst. constructor; [|apply IH; assumption].
      destruct (scaled_spec _ (snd r) v SR) as (sc2 & ns & E2 & F2 & V); [congruence|]. exists ns. split; [exact F2|]. replace sc' with sc2; [exact V|].
      clear - E2. revert sc2 E2. induction sc' as [|a sc' IH]; intros [|b sc2] E; try discriminate; [reflexivity|]. cbn in E. injection E as <- E. f_equal. apply IH, E. }
    split; [exact EACH|]. split.
    { clear - YS. induction YS as [|r v rs vs H _ IH]; constructor; [|exact IH]. apply mapM_ok in H. clear - H. induction H as [|a x l l' H _ IH]; constructor; [|exact IH]. destruct a; cbn in H |- *; congruence. }
    intros j p J. unfold fit_scaler in FS. apply mapM_ok in FS. assert (JL : (j < length (m_columns X))%nat).
    { rewrite <- LS, map_length. apply nth_error_Some. congruence. }
    assert (EJ : (let! q := finite_or_missing (col X j) in Ok (match mean (map Some q) with Some mu => Some (mu, scale q) | None => None end)) = Ok (Some p)).
    { destruct (F2_at _ _ _ FS j j) as (o & O & H). { rewrite (nth_error_nth' _ 0%nat) by (rewrite seq_length; exact JL). rewrite seq_nth by exact JL. reflexivity. }
      rewrite nth_error_map, J in O. cbn in O. injection O as <-. exact H. }
    assert (CJ : exists ns, finite_or_missing (col X j) = Ok ns /\ Forall2 (fun r x => exists a, nth_error (snd r) j = Some a /\ number a = Some x) (m_rows X) ns).
    { clear - EACH LN JL. unfold col. revert LN. induction EACH as [|r v rs vs (ns & F & _) _ IH]; intro LN; [exists []; split; [reflexivity|constructor]|].
      inversion LN as [|? ? L1 L2]; subst. destruct (IH L2) as (ns' & E' & F'). destruct (nth_error (snd r) j) as [a|] eqn:A; [|apply nth_error_None in A; lia].
      destruct (F2_at _ _ _ F j a A) as (x & _ & H). exists (x :: ns'). split; [|constructor; [exists a; split; assumption|exact F']].
      cbn [flat_map app]. rewrite A. cbn [app]. destruct a; cbn in H |- *; try discriminate; injection H as <-; rewrite E'; reflexivity. }
    destruct CJ as (ns & EN & F). rewrite EN in EJ. cbn [bind] in EJ. exists ns. split; [exact F|]. unfold mean in EJ.
    assert (DN : dropna (map Some ns) = ns) by (clear; induction ns as [|x ns IH]; cbn; [reflexivity|f_equal; exact IH]). rewrite DN in EJ.
    destruct ns as [|x ns]; [inversion F as [E0|]; symmetry in E0; contradiction|]. injection EJ as <-. reflexivity.
  Qed.
End Training.

(** ** C51: predictions *)
Section Predictions.
  Variables (e : experiment) (h : option bool) (m m' p : matrix) (dropped : list string) (l : linear).
  Let b := match h with Some b => b | None => l_homogenize (e_settings e) end.
  Let M := stripped b m.
  Hypothesis PM : proper M.
  Hypothesis NDL : NoDup (e_labels e).
  Hypothesis LSC : length (e_scaler e) = length (e_labels e).
  Hypothesis ML : e_model e = Some l.
  Hypothesis OK : predict e h m = (m', Ok (p, dropped)).
  Lemma predicted_labels : labels p = predicted e h m.
  Proof.
    destruct (predict_spec e h m m' p dropped l PM NDL LSC ML OK) as (fill & _ & _ & _ & _ & _ & _ & (sc & _ & F) & _). unfold labels. revert F. generalize (predicted e h m) (m_rows p).
    intros ss rs F. induction F as [|s r ss rs (E & _) F IH]; cbn; [reflexivity|]. rewrite E, IH. reflexivity.
  Qed.
  (** There is one prediction, of all targets, for each sample with enough of the features, in the
      order of the samples.  Enough is counted against all columns of the given matrix. *)
  Theorem C51_samples : m_columns p = l_targets (e_settings e) /\
    labels p = filter (fun s => Qle_bool (predict_thr (e_settings e) * count (m_columns M)) (count (filter (fun n => negb (is_nan (value M s n))) (e_labels e)))) (labels M) /\ NoDup (labels p).
  Proof.
    rewrite predicted_labels. destruct (predict_spec e h m m' p dropped l PM NDL LSC ML OK) as (fill & _ & _ & _ & _ & C & _). split; [exact C|]. split; [reflexivity|]. apply nodup_filter. apply PM.
  Qed.
  (** The prediction is the intercept plus the weights times the scaled numbers of the sample, a missing
      number being the median (or mean) of the predicted samples. *)
  Theorem C51_values : exists sc fill, e_scaler e = map Some sc /\
    (l_impute (e_settings e) <> "none"%string -> forall n, In n (e_labels e) -> filler (l_impute (e_settings e)) (map (fun s => value M s n) (labels p)) = Ok (fill n)) /\
    forall s, In s (labels p) -> exists ns, Forall2 (fun n x => number (if is_nan (value M s n) then fill n else value M s n) = Some x) (e_labels e) ns /\
      forall t i ws w, nth_error (l_targets (e_settings e)) i = Some t -> NoDup (l_targets (e_settings e)) -> nth_error (coefs l) i = Some ws -> nth_error (intercepts l) i = Some w ->
        entry p s t = Some (Number (weighted ws sc ns + w)).
  Proof.
    rewrite predicted_labels. destruct (predict_spec e h m m' p dropped l PM NDL LSC ML OK) as (fill & _ & FF & _ & _ & C & _ & (sc & SC & F) & _). exists sc, fill. split; [exact SC|]. split; [exact FF|].
    intros s S. destruct (in_split _ _ S) as (s1 & s2 & E).
    assert (G : exists ns, Forall2 (fun n x => number (if is_nan (value M s n) then fill n else value M s n) = Some x) (e_labels e) ns /\
                sget (m_rows p) s = Some (map (fun w => Number (weighted (fst w) sc ns + snd w)) (combine (coefs l) (intercepts l)))).
    { revert F S. generalize (predicted e h m) (m_rows p). intros ss rs F. induction F as [|s0 [k r] ss rs (E0 & ns & F2 & R) F IH]; intros S; [destruct S|]. cbn [fst snd] in *. subst k. cbn.
      destruct (String.eqb_spec s s0) as [->|N].
      - exists ns. split; [exact F2|]. rewrite R. reflexivity.
      - destruct S as [S|S]; [congruence|]. apply IH, S. }
    destruct G as (ns & F2 & G). exists ns. split; [exact F2|]. intros t i ws w T ND W I. unfold entry. rewrite G, C, (position_self _ _ _ ND T). rewrite nth_map.
    assert (K : nth_error (combine (coefs l) (intercepts l)) i = Some (ws, w)); [|rewrite K; reflexivity].
    clear - W I. revert i W I. generalize (coefs l) (intercepts l). intro a. induction a as [|x a IH]; intros [|y b] [|i] W I; cbn in *; try discriminate; [congruence|]. apply IH; assumption.
  Qed.
  (** Hence for a sample with a number for every feature the prediction depends on nothing else. *)
  Theorem C51_complete_sample s ns : In s (labels p) -> Forall2 (fun n x => number (value M s n) = Some x) (e_labels e) ns ->
    exists sc, e_scaler e = map Some sc /\ forall t i ws w, nth_error (l_targets (e_settings e)) i = Some t -> NoDup (l_targets (e_settings e)) -> nth_error (coefs l) i = Some ws -> nth_error (intercepts l) i = Some w ->
      entry p s t = Some (Number (weighted ws sc ns + w)).
  Proof.
    intros S F. destruct C51_values as (sc & fill & SC & _ & V). exists sc. split; [exact SC|]. destruct (V s S) as (ns' & F' & K).
    assert (ns' = ns) as ->; [|exact K]. clear - F F'. revert ns' F'. induction F as [|n x ls ns A F IH]; intros ns' F'; inversion F' as [|? x' ? ? B F'']; subst; [reflexivity|].
    f_equal; [|apply IH, F'']. assert (N : is_nan (value M s n) = false) by (destruct (value M s n); cbn in A; try discriminate; reflexivity). rewrite N in B. congruence.
  Qed.
  (** If every sample is predicted, none is reported; otherwise all those without a prediction are (unless
      called like a feature).  Missing: that only those are, see below. *)
  Theorem C51_dropped_partial : (forall s, In s dropped -> In s (labels M)) /\ ((forall s, In s (labels M) -> In s (labels p)) -> dropped = []) /\
    (forall s, In s (labels M) -> ~ In s (labels p) -> ~ In s (e_labels e) -> In s dropped).
  Proof.
    rewrite predicted_labels. destruct (predict_spec e h m m' p dropped l PM NDL LSC ML OK) as (fill & _ & _ & _ & _ & _ & _ & _ & D). fold b in D. fold M in D. rewrite D.
    assert (LE : length (labels M) = length (predicted e h m) <-> forall s, In s (labels M) -> In s (predicted e h m)).
    { unfold predicted. fold b M. clear. induction (labels M) as [|s ss IH]; cbn; [tauto|]. assert (LL : (length (filter (predictable e h m) ss) <= length ss)%nat) by (clear; induction ss as [|x ss IH]; cbn; [lia|]; destruct (predictable e h m x); cbn; lia).
      destruct (predictable e h m s) eqn:P; cbn.
      - split; [intros E t [<-|T]; [left; reflexivity|right; apply IH; [lia|exact T]]|]. intro H. f_equal. apply IH. intros t T. destruct (H t (or_intror T)) as [<-|K]; [|exact K]. apply filter_In. auto.
      - split; [lia|]. intro H. exfalso. assert (K : In s (filter (predictable e h m) ss)) by (apply H; left; reflexivity). apply filter_In in K. destruct K. congruence. }
    split; [|split].
    - intros s S. destruct (Nat.eqb _ _); [destruct S|]. apply filter_In in S. apply S.
    - intro H. apply LE in H. rewrite H, Nat.eqb_refl. reflexivity.
    - intros s S N NL. destruct (Nat.eqb_spec (length (labels M)) (length (predicted e h m))) as [E|E]; [exfalso; apply N, LE; assumption|]. apply filter_In. split; [exact S|]. apply negb_true_iff, str_in_false, NL.
  Qed.
End Predictions.
(** Without stripping of headings the matrix is left as it is, so predicting again gives the same. *)
Theorem C51_again_partial e m : fst (predict e (Some false) m) = m /\ forall r, predict e (Some false) m = (m, r) -> predict e (Some false) (fst (predict e (Some false) m)) = (m, r).
Proof.
  assert (E : fst (predict e (Some false) m) = m) by (unfold predict; destruct (e_model e); reflexivity). split; [exact E|]. intros r R. rewrite E. exact R.
Qed.
(** A model can only predict once trained. *)
Theorem C51_untrained scale c fm tm e h m : proper (stripped (l_homogenize c) fm) -> proper (stripped (l_homogenize c) tm) -> create scale c fm tm = Ok e -> snd (predict e h m) = Err BEEPMLExperimentError.
Proof.
  intros PM PY OK. destruct (create_spec scale c fm tm e PM PY OK) as (fill & _ & _ & _ & _ & _ & _ & _ & _ & EM & _). unfold predict. rewrite EM. reflexivity.
Qed.
(** A missing feature is an error. *)
Theorem C51_missing_feature e h m f l : e_model e = Some l -> In f (e_labels e) -> ~ In f (m_columns (stripped (match h with Some b => b | None => l_homogenize (e_settings e) end) m)) -> snd (predict e h m) = Err BEEPMLExperimentError.
Proof.
  intros ML F N. unfold predict. rewrite ML. cbn [snd]. fold (stripped (match h with Some b => b | None => l_homogenize (e_settings e) end) m).
  replace (existsb _ (e_labels e)) with true; [reflexivity|]. symmetry. apply existsb_exists. exists f. split; [exact F|]. apply negb_true_iff, str_in_false, N.
Qed.

(** ** C81: saved models *)
(** A model trained on all its data, no sample of which was lost for its targets, predicts after loading
      exactly as before.  Missing: training on a part, lost samples; see below. *)
Theorem C81_restore_partial scale fit c fm tm e0 e : proper (stripped (l_homogenize c) fm) -> proper (stripped (l_homogenize c) tm) ->
  create scale c fm tm = Ok e0 -> train scale fit e0 None = Ok e ->
  (forall s, In s (labels (stripped (l_homogenize c) fm)) -> sample_enough c (stripped (l_homogenize c) fm) s -> training_targets c (stripped (l_homogenize c) tm) s) ->
  exists e', restore scale e fm tm = Ok e' /\ forall h m, predict e' h m = predict e h m.
Proof.
  intros PM PY CR TR ALL. destruct (create_spec scale c fm tm e0 PM PY CR) as (fill & _ & _ & EX & _ & EL & ES & _ & _ & _ & FS & _).
  assert (LS : last_samples c fm tm = first_samples c fm).
  { unfold last_samples. apply filter_all. intros s S. unfold first_samples in S. apply filter_In in S. destruct S as [S E]. unfold training_targetsb. apply forallb_forall. apply ALL; [exact S|]. apply Qle_bool_iff, E. }
  unfold train in TR. rewrite EX, LS in TR. rewrite FS in TR. cbn [bind] in TR.
  repeat (match type of TR with (let! _ := ?r in _) = _ => destruct r; cbn [bind] in TR; [|discriminate] end). injection TR as <-.
  unfold restore. cbn [e_model e_settings]. rewrite ES, CR. cbn [bind]. eexists. split; [reflexivity|]. intros h m. unfold predict. cbn [e_model e_settings e_labels e_scaler]. rewrite ES. reflexivity.
Qed.

(** Trained experiments meet the conditions used for predictions above. *)
Theorem C51_trained scale fit c fm tm e0 e Xy : proper (stripped (l_homogenize c) fm) -> proper (stripped (l_homogenize c) tm) -> create scale c fm tm = Ok e0 ->
  match Xy with Some (X, _) => m_columns X = e_labels e0 | None => True end -> train scale fit e0 Xy = Ok e ->
  NoDup (e_labels e) /\ length (e_scaler e) = length (e_labels e) /\ exists l, e_model e = Some l.
Proof.
  intros PM PY CR XC TR. destruct (create_spec scale c fm tm e0 PM PY CR) as (fill & _ & _ & EX & _ & EL & _).
  assert (ND : NoDup (e_labels e0)) by (rewrite EL; apply nodup_filter, PM). unfold train in TR.
  destruct Xy as [[X y]|]; (destruct (fit_scaler scale _) as [sc|] eqn:FS in TR; cbn [bind] in TR; [|discriminate]; apply fit_scaler_length in FS;
    repeat (match type of TR with (let! _ := ?r in _) = _ => destruct r; cbn [bind] in TR; [|discriminate] end); injection TR as <-; cbn; split; [exact ND|]; split; [|eauto]).
  - rewrite FS, XC. reflexivity.
  - rewrite FS, EX, EL. reflexivity.
Qed.

(** ** Examples and findings *)
Definition toy_scale (l : list Q) : Q := 1.
Definition toy_fit (c : settings) (xs ys : list (list Q)) : result linear := Ok {| coefs := [[1; 1]]; intercepts := [10] |}.
Definition toy_settings (f s p : Q) (d : bool) : settings :=
  {| l_targets := ["t::T"%string]; model_name := "lasso"; feature_thr := f; sample_thr := s; predict_thr := p; drop_nan := d; l_impute := "median"; l_homogenize := true |}.
Definition toy_features : matrix :=
  {| m_columns := ["a::F::h1"; "b::F::h1"]%string;
     m_rows := [("s1"%string, [Number 1; Number 5]); ("s2"%string, [Number 2; NaN]); ("s3"%string, [Number 3; Number 6]); ("s4"%string, [Number 4; Inf true])] |}.
Definition toy_targets : matrix :=
  {| m_columns := ["t::T::h2"]%string; m_rows := [("s1"%string, [Number 10]); ("s2"%string, [Number 20]); ("s3"%string, [Number 30]); ("s4"%string, [NaN])] |}.
Definition proper_b (m : matrix) : bool :=
  all_distinct (m_columns m) && all_distinct (labels m) && forallb (fun r => Nat.eqb (length (snd r)) (length (m_columns m))) (m_rows m).
Lemma proper_b_ok m : proper_b m = true -> proper m.
Proof.
  intro H. apply andb_true_iff in H. destruct H as [H F]. apply andb_true_iff in H. destruct H as [A B]. split; [apply all_distinct_iff, A|]. split; [apply all_distinct_iff, B|].
  apply Forall_forall. intros r R. rewrite forallb_forall in F. apply Nat.eqb_eq, F, R.
Qed.
Definition toy_built (c : settings) (fm tm : matrix) : option experiment := match create toy_scale c fm tm with Ok e => Some e | Err _ => None end.
Definition toy_trained (c : settings) (fm tm : matrix) : option experiment :=
  match toy_built c fm tm with Some e => match train toy_scale toy_fit e None with Ok e => Some e | Err _ => None end | None => None end.
Definition toy_dropping := toy_settings (19 # 20) (1 # 2) (3 # 4) true.
Example toy_features_proper : proper (stripped (l_homogenize toy_dropping) toy_features).
Proof. apply proper_b_ok. vm_compute. reflexivity. Qed.
Example toy_targets_proper : proper (stripped (l_homogenize toy_dropping) toy_targets).
Proof. apply proper_b_ok. vm_compute. reflexivity. Qed.
(** s4 has no target; the missing value of s2 becomes the median of 5 and 6. *)
Example toy_training : option_map (fun e => (e_labels e, map (fun r => (fst r, map (fun c => match number c with Some x => Qred x | None => 0 end) (snd r))) (m_rows (e_X e)))) (toy_built toy_dropping toy_features toy_targets) =
  Some (["a::F"; "b::F"]%string, [("s1"%string, [1; 5]); ("s2"%string, [2; 11 # 2]); ("s3"%string, [3; 6])]).
Proof. vm_compute. reflexivity. Qed.
Definition toy_new : matrix :=
  {| m_columns := ["a::F::h9"; "b::F::h9"]%string; m_rows := [("n1"%string, [Number 1; Number 5]); ("n2"%string, [NaN; Number 7]); ("n3"%string, [Number 3; Number 9])] |}.
Definition toy_predicted (r : result (matrix * list string)) : option (list (string * list Q) * list string) :=
  match r with Ok (p, d) => Some (map (fun r => (fst r, map (fun c => match number c with Some x => Qred x | None => 0 end) (snd r))) (m_rows p), d) | Err _ => None end.
Example toy_predictions : option_map (fun e => toy_predicted (snd (predict e None toy_new))) (toy_trained toy_dropping toy_features toy_targets) =
  Some (Some ([("n1"%string, [17 # 2]); ("n3"%string, [29 # 2])], ["n1"; "n2"; "n3"]%string)).
Proof. vm_compute. reflexivity. Qed.

(** Finding: the threshold for features is stored but not used; that for samples is used in its place. *)
Theorem C50_feature_threshold_refuted : ~ (forall scale c fm tm e n, proper (stripped (l_homogenize c) fm) -> proper (stripped (l_homogenize c) tm) -> create scale c fm tm = Ok e ->
  In n (e_labels e) -> present_in (stripped (l_homogenize c) fm) (feature_thr c) n).
Proof.
  intro H. destruct (create toy_scale toy_dropping toy_features toy_targets) as [e|] eqn:E; [|vm_compute in E; discriminate].
  specialize (H toy_scale toy_dropping toy_features toy_targets e "b::F"%string toy_features_proper toy_targets_proper E). vm_compute in E. injection E as <-.
  specialize (H (or_intror (or_introl eq_refl))). vm_compute in H. apply H. reflexivity.
Qed.
(** Finding: a feature may be kept for samples that are then dropped; nothing is left to impute it from. *)
Definition toy_apart : matrix :=
  {| m_columns := ["a::F::h1"; "b::F::h1"; "c::F::h1"]%string;
     m_rows := [("s1"%string, [Number 1; NaN; NaN]); ("s2"%string, [Number 2; NaN; NaN]); ("s3"%string, [NaN; Number 5; Number 6]); ("s4"%string, [NaN; Number 7; Number 8])] |}.
Definition toy_all_targets : matrix :=
  {| m_columns := ["t::T::h2"]%string; m_rows := [("s1"%string, [Number 10]); ("s2"%string, [Number 20]); ("s3"%string, [Number 30]); ("s4"%string, [Number 40])] |}.
Theorem C50_no_missing_refuted : ~ (forall scale c fm tm e s n, proper (stripped (l_homogenize c) fm) -> proper (stripped (l_homogenize c) tm) -> create scale c fm tm = Ok e ->
  l_impute c <> "none"%string -> In s (labels (e_X e)) -> In n (e_labels e) -> exists x, entry (e_X e) s n = Some x /\ is_nan x = false).
Proof.
  intro H. destruct (create toy_scale toy_dropping toy_apart toy_all_targets) as [e|] eqn:E; [|vm_compute in E; discriminate].
  specialize (H toy_scale toy_dropping toy_apart toy_all_targets e "s3"%string "a::F"%string ltac:(apply proper_b_ok; vm_compute; reflexivity) ltac:(apply proper_b_ok; vm_compute; reflexivity) E).
  vm_compute in E. injection E as <-. destruct H as (x & X & N); [discriminate|left; reflexivity|left; reflexivity|]. vm_compute in X. injection X as <-. discriminate.
Qed.

Definition trained (scale : list Q -> Q) (fit : settings -> list (list Q) -> list (list Q) -> result linear) (c : settings) (fm tm : matrix) (e : experiment) : Prop :=
  proper (stripped (l_homogenize c) fm) /\ proper (stripped (l_homogenize c) tm) /\ exists e0, create scale c fm tm = Ok e0 /\ train scale fit e0 None = Ok e.
Definition toy_model : experiment := match toy_trained toy_dropping toy_features toy_targets with Some e => e | None =>
  {| e_settings := toy_dropping; e_features := toy_features; e_target_matrix := toy_targets; e_X := toy_features; e_y := toy_targets; e_labels := []; e_scaler := []; e_model := None |} end.
Lemma toy_model_trained : trained toy_scale toy_fit toy_dropping toy_features toy_targets toy_model.
Proof. split; [exact toy_features_proper|]. split; [exact toy_targets_proper|]. eexists. split; vm_compute; reflexivity. Qed.
Definition toy_new_proper : proper (stripped true toy_new) := proper_b_ok (stripped true toy_new) eq_refl.

(** Finding: as soon as one sample is dropped, all samples are reported as dropped. *)
Theorem C51_dropped_refuted : ~ (forall scale fit c fm tm e h m m' p d s, trained scale fit c fm tm e -> proper (stripped (match h with Some b => b | None => l_homogenize c end) m) ->
  predict e h m = (m', Ok (p, d)) -> In s d -> ~ In s (labels p)).
Proof.
  intro H. destruct (predict toy_model None toy_new) as [m' r] eqn:E. destruct r as [[p d]|]; [|vm_compute in E; discriminate].
  apply (H toy_scale toy_fit toy_dropping toy_features toy_targets toy_model None toy_new m' p d "n1"%string toy_model_trained toy_new_proper E); vm_compute in E; injection E as _ <- <-; left; reflexivity.
Qed.
(** Finding: predicting renames the columns of the matrix that is passed in, and a second time the same
    matrix is rejected. *)
Theorem C51_again_refuted : ~ (forall scale fit c fm tm e h m m' p d, trained scale fit c fm tm e -> proper (stripped (match h with Some b => b | None => l_homogenize c end) m) ->
  predict e h m = (m', Ok (p, d)) -> snd (predict e h m') = Ok (p, d)).
Proof.
  intro H. destruct (predict toy_model None toy_new) as [m' r] eqn:E. destruct r as [[p d]|]; [|vm_compute in E; discriminate].
  specialize (H toy_scale toy_fit toy_dropping toy_features toy_targets toy_model None toy_new m' p d toy_model_trained toy_new_proper E). vm_compute in E. injection E as <- <- <-. vm_compute in H. discriminate.
Qed.
(** Finding: the threshold is multiplied with the number of all columns passed in, so that samples with
    every feature are dropped when the matrix has other columns as well. *)
Definition toy_wide : matrix :=
  {| m_columns := ["a::F::h9"; "b::F::h9"; "x::G::h9"]%string; m_rows := [("n1"%string, [Number 1; Number 5; Number 0]); ("n2"%string, [Number 2; Number 7; Number 0])] |}.
Theorem C51_threshold_refuted : ~ (forall scale fit c fm tm e h m, trained scale fit c fm tm e -> let M := stripped (match h with Some b => b | None => l_homogenize c end) m in proper M ->
  labels M <> [] -> (forall n, In n (e_labels e) -> In n (m_columns M)) -> (forall s n, In s (labels M) -> In n (m_columns M) -> number (value M s n) <> None) -> predict_thr c <= 1 ->
  exists p d, snd (predict e h m) = Ok (p, d)).
Proof.
  intro H. destruct (H toy_scale toy_fit toy_dropping toy_features toy_targets toy_model None toy_wide toy_model_trained) as (p & d & P).
  - apply proper_b_ok. vm_compute. reflexivity.
  - discriminate.
  - intros n [<-|[<-|[]]]; apply str_in_iff; vm_compute; reflexivity.
  - intros s n [<-|[<-|[]]] N; cbn in N; decompose [or] N; subst; try tauto; vm_compute; discriminate.
  - vm_compute. discriminate.
  - vm_compute in P. discriminate.
Qed.
(** Finding: missing values are imputed from the samples that happen to be predicted together, so the
    prediction for a sample depends on the others. *)
Definition toy_batch (x : Q) : matrix :=
  {| m_columns := ["a::F::h9"; "b::F::h9"]%string; m_rows := [("n1"%string, [Number 1; NaN]); ("n2"%string, [Number 2; Number x])] |}.
Definition toy_lenient := toy_settings (19 # 20) (1 # 2) (1 # 2) true.
Definition toy_lenient_model : experiment := match toy_trained toy_lenient toy_features toy_targets with Some e => e | None => toy_model end.
Lemma toy_lenient_trained : trained toy_scale toy_fit toy_lenient toy_features toy_targets toy_lenient_model.
Proof. split; [exact toy_features_proper|]. split; [exact toy_targets_proper|]. eexists. split; vm_compute; reflexivity. Qed.
Theorem C51_other_samples_refuted : ~ (forall scale fit c fm tm e h m1 m2 m1' m2' p1 p2 d1 d2 s t, trained scale fit c fm tm e ->
  proper (stripped (match h with Some b => b | None => l_homogenize c end) m1) -> proper (stripped (match h with Some b => b | None => l_homogenize c end) m2) ->
  predict e h m1 = (m1', Ok (p1, d1)) -> predict e h m2 = (m2', Ok (p2, d2)) -> m_columns m1 = m_columns m2 -> sget (m_rows m1) s = sget (m_rows m2) s -> In s (labels p1) -> In s (labels p2) -> entry p1 s t = entry p2 s t).
Proof.
  intro H. destruct (predict toy_lenient_model None (toy_batch 5)) as [m1' r1] eqn:E1. destruct r1 as [[p1 d1]|]; [|vm_compute in E1; discriminate].
  destruct (predict toy_lenient_model None (toy_batch 9)) as [m2' r2] eqn:E2. destruct r2 as [[p2 d2]|]; [|vm_compute in E2; discriminate].
  specialize (H toy_scale toy_fit toy_lenient toy_features toy_targets toy_lenient_model None (toy_batch 5) (toy_batch 9) m1' m2' p1 p2 d1 d2 "n1"%string "t::T"%string toy_lenient_trained ltac:(apply proper_b_ok; vm_compute; reflexivity) ltac:(apply proper_b_ok; vm_compute; reflexivity) E1 E2 eq_refl eq_refl).
  vm_compute in E1, E2. injection E1 as _ <- _. injection E2 as _ <- _. specialize (H (or_introl eq_refl) (or_introl eq_refl)). vm_compute in H. discriminate.
Qed.
(** Finding: infinite values, which training counts as missing, make the prediction fail. *)
Definition toy_infinite : matrix :=
  {| m_columns := ["a::F::h9"; "b::F::h9"]%string; m_rows := [("n1"%string, [Number 1; Inf true]); ("n2"%string, [Number 2; Number 7])] |}.
Theorem C51_infinite_refuted : ~ (forall scale fit c fm tm e h m p d, trained scale fit c fm tm e -> proper (stripped (match h with Some b => b | None => l_homogenize c end) m) ->
  snd (predict e h (map_cells no_inf m)) = Ok (p, d) -> snd (predict e h m) = Ok (p, d)).
Proof.
  intro H. destruct (snd (predict toy_lenient_model None (map_cells no_inf toy_infinite))) as [[p d]|] eqn:E; [|vm_compute in E; discriminate].
  specialize (H toy_scale toy_fit toy_lenient toy_features toy_targets toy_lenient_model None toy_infinite p d toy_lenient_trained ltac:(apply proper_b_ok; vm_compute; reflexivity) E). vm_compute in H. discriminate.
Qed.
(** Finding: the scaling is not saved.  On loading it is fitted again, on all samples with enough
    features, also those left out of training for their missing target: the loaded model predicts
    something else. *)
Theorem C81_restore_refuted : ~ (forall scale fit c fm tm e e' h m, trained scale fit c fm tm e -> restore scale e fm tm = Ok e' -> predict e' h m = predict e h m).
Proof.
  intro H. destruct (restore toy_scale toy_model toy_features toy_targets) as [e'|] eqn:E; [|vm_compute in E; discriminate].
  specialize (H _ _ _ _ _ _ _ None toy_new toy_model_trained E). vm_compute in E. injection E as <-. vm_compute in H. discriminate.
Qed.
(** Finding: the same for a model trained on a part of its data, as train_and_score does. *)
Theorem C81_part_refuted : ~ (forall scale fit c fm tm e0 e e' is h m, proper (stripped (l_homogenize c) fm) -> proper (stripped (l_homogenize c) tm) -> create scale c fm tm = Ok e0 ->
  train scale fit e0 (Some (iloc is (e_X e0), iloc is (e_y e0))) = Ok e -> restore scale e fm tm = Ok e' -> predict e' h m = predict e h m).
Proof.
  intro H. destruct (create toy_scale toy_dropping toy_features toy_all_targets) as [e0|] eqn:E0; [|vm_compute in E0; discriminate].
  destruct (train toy_scale toy_fit e0 (Some (iloc [0; 1]%nat (e_X e0), iloc [0; 1]%nat (e_y e0)))) as [e|] eqn:E; [|vm_compute in E0; injection E0 as <-; vm_compute in E; discriminate].
  destruct (restore toy_scale e toy_features toy_all_targets) as [e'|] eqn:R; [|vm_compute in E0; injection E0 as <-; vm_compute in E; injection E as <-; vm_compute in R; discriminate].
  specialize (H toy_scale toy_fit toy_dropping toy_features toy_all_targets e0 e e' [0; 1]%nat None toy_new toy_features_proper ltac:(apply proper_b_ok; vm_compute; reflexivity) E0 E R).
  vm_compute in E0; injection E0 as <-; vm_compute in E; injection E as <-; vm_compute in R; injection R as <-. vm_compute in H. discriminate.
Qed.
(** A case in which loading does preserve the predictions. *)
Example toy_restore : option_map (fun e => match restore toy_scale e toy_features toy_all_targets with Ok e' => Some (toy_predicted (snd (predict e' None toy_new))) | Err _ => None end) (toy_trained toy_dropping toy_features toy_all_targets) =
  Some (Some (Some ([("n1"%string, [8]); ("n3"%string, [14])], ["n1"; "n2"; "n3"]%string))).
Proof. vm_compute. reflexivity. Qed.

Print Assumptions C50_same_samples.
Print Assumptions C50_features_partial.
Print Assumptions C50_samples.
Print Assumptions C50_no_target_lost.
Print Assumptions C50_values.
Print Assumptions C50_imputed.
Print Assumptions C50_no_missing_partial.
Print Assumptions C50_supported.
Print Assumptions C50_train.
Print Assumptions C50_trained_on.
Print Assumptions C51_samples.
Print Assumptions C51_values.
Print Assumptions C51_complete_sample.
Print Assumptions C51_dropped_partial.
Print Assumptions C51_again_partial.
Print Assumptions C51_untrained.
Print Assumptions C51_missing_feature.
Print Assumptions C81_restore_partial.
Print Assumptions C51_trained.
Print Assumptions C50_feature_threshold_refuted.
Print Assumptions C50_no_missing_refuted.
Print Assumptions C51_dropped_refuted.
Print Assumptions C51_again_refuted.
Print Assumptions C51_threshold_refuted.
Print Assumptions C51_other_samples_refuted.
Print Assumptions C51_infinite_refuted.
Print Assumptions C81_restore_refuted.
Print Assumptions C81_part_refuted.
