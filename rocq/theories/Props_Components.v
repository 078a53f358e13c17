(** C137-C139: principal components, outliers and tables to decompose. *)
From Verif Require Import Py Num Model_Diagnostic Model_Structure Model_Summary Model_Waveform Model_Components Spec_Components Proofs_Components.
From Coq Require Import Sorting.Sorted Sorting.Permutation SetoidList Lqa.

(** C137: min_components is the smallest number of components that explain more than the threshold. *)
Theorem C137_components : forall scale unscale project unproject ratios n threshold data f, principal_components scale unscale project unproject ratios n threshold data = Ok f ->
  exists w rows, rectangular w data rows /\ let shares := ratios n (map (scale rows) rows) in
    (1 <= f_min f <= length shares)%nat /\ threshold < explained (f_min f) shares /\ forall k, (1 <= k < f_min f)%nat -> explained k shares <= threshold.
Proof.
  intros scale unscale project unproject ratios n t data f H. apply fit_ok in H as (w & rows & k & R & _ & _ & A & ->). exists w, rows. split; [exact R|]. cbn [f_min]. cbn zeta. destruct (first_above_some _ _ _ _ A) as (K & T & M).
  split; [lia|]. unfold explained. split; [lra|]. intros [|i] I; [lia|]. specialize (M i ltac:(lia)). lra.
Qed.
(** C137: a table without gaps, with at least as many rows and columns as components, is taken if some number of components explains more than the threshold;
    everything else is refused with ValueError. *)
Theorem C137_taken : forall scale unscale project unproject ratios n threshold w data rows k, rectangular w data rows -> (n <= length rows)%nat -> (n <= w)%nat ->
  (1 <= k <= length (ratios n (map (scale rows) rows)))%nat -> threshold < explained k (ratios n (map (scale rows) rows)) ->
  exists f, principal_components scale unscale project unproject ratios n threshold data = Ok f.
Proof. intros scale unscale project unproject ratios n t w data rows k. apply fit_defined. Qed.
Theorem C137_refused : forall scale unscale project unproject ratios n threshold data e, principal_components scale unscale project unproject ratios n threshold data = Err e ->
  e = ValueError /\ ((forall w rows, ~ rectangular w data rows) \/
    exists w rows, rectangular w data rows /\ ((Nat.min (length rows) w < n)%nat \/ forall k, (1 <= k <= length (ratios n (map (scale rows) rows)))%nat -> explained k (ratios n (map (scale rows) rows)) <= threshold)).
Proof. intros scale unscale project unproject ratios n t data e. apply fit_err. Qed.
(** C137: the embeddings of the training data have all the components asked for, and are what get_pca_embeddings gives for that data. *)
Theorem C137_embeddings : forall scale unscale project unproject ratios n threshold data f, components project -> principal_components scale unscale project unproject ratios n threshold data = Ok f ->
  get_pca_embeddings scale project f data = Ok (f_embeddings f) /\ length (f_embeddings f) = length data /\ Forall (fun e => length e = n) (f_embeddings f).
Proof.
  intros scale unscale project unproject ratios n t data f CP H. unfold get_pca_embeddings. rewrite (training_rows _ _ _ _ _ _ _ _ _ H). cbn [bind]. apply fit_ok in H as (w & rows & k & (-> & _) & _ & _ & _ & ->). cbn [f_data f_n f_embeddings].
  split; [reflexivity|]. split; [unfold numbers; rewrite !map_length; reflexivity|]. apply Forall_forall. intros e I. apply in_map_iff in I as (r & <- & _). apply CP.
Qed.
(** C137: rows are scaled as the training data are, and projected on the components of the scaled training data. *)
Theorem C137_projected : forall scale unscale project unproject ratios n threshold data f new es, principal_components scale unscale project unproject ratios n threshold data = Ok f ->
  get_pca_embeddings scale project f new = Ok es ->
  exists w rows news, rectangular w data rows /\ rectangular w new news /\ es = map (fun r => project n (map (scale rows) rows) (scale rows r)) news /\
    f_embeddings f = map (fun r => project n (map (scale rows) rows) (scale rows r)) rows.
Proof.
  intros scale unscale project unproject ratios n t data f new es H E. apply fit_ok in H as (w & rows & k & R & _ & _ & _ & ->). unfold get_pca_embeddings, rows_for in E. cbn [f_data f_n f_embeddings] in *.
  assert (W : match rows with [] => 0%nat | r :: _ => length r end = w) by (destruct R as (_ & N & _ & F); destruct rows; [congruence|]; inversion F; assumption). rewrite W in E.
  destruct (complete w new) as [news|] eqn:C; [|discriminate E]. cbn [bind] in E. injection E as <-. apply complete_iff in C. exists w, rows, news. split; [exact R|]. split; [exact C|]. split; reflexivity.
Qed.
(** Finding (C137): the components found to be enough are only reported; all the components asked for are kept. *)
Theorem C137_kept_refuted : exists scale unscale project unproject ratios data f, components project /\ shares ratios /\
  principal_components scale unscale project unproject ratios 2 (1 # 2) data = Ok f /\ f_min f = 1%nat /\ Forall (fun e => length e = 2%nat) (f_embeddings f).
Proof.
  exists (fun _ r => r), (fun _ r => r), (fun n _ r => map (fun j => nth j r 0) (seq 0 n)), (fun _ _ r => r), (fun n _ => match n with O => [] | S k => 1 :: repeat 0 k end), [[Some 1; Some 2]; [Some 3; Some 5]]. eexists.
  split; [intros n data row; rewrite map_length, seq_length; reflexivity|]. split.
  { intros [|k] data; [repeat split; [constructor | cbn; lra]|]. cbn [length qsum]. rewrite repeat_length. split; [reflexivity|]. assert (R : qsum (repeat 0 k) == 0) by (induction k; cbn [repeat qsum]; [reflexivity | rewrite IHk; reflexivity]). split; [|rewrite R; lra].
    constructor; [lra|]. apply Forall_forall. intros x I. apply repeat_spec in I. subst. lra. }
  split; [reflexivity|]. split; [reflexivity|]. repeat constructor.
Qed.
(** Finding (C137): to ask for the whole variance is always refused, even though the components may explain it. *)
Theorem C137_whole_variance_refuted : forall scale unscale project unproject ratios n threshold data f, shares ratios -> 1 <= threshold ->
  principal_components scale unscale project unproject ratios n threshold data <> Ok f.
Proof.
  intros scale unscale project unproject ratios n t data f SH T H. destruct (C137_components _ _ _ _ _ _ _ _ _ H) as (w & rows & _ & _ & X & _). destruct (SH n (map (scale rows) rows)) as (_ & P & S1). pose proof (qsum_firstn _ P (f_min f)). unfold explained in X. lra.
Qed.
(** Finding (C137): from_interpolated_data always asks for 15 components, so that fewer than 15 cycles, or points per cycle, are refused. *)
Theorem C137_fifteen_refuted : forall scale unscale project unproject ratios load d cycles t f, pivot_data load d cycles = Ok t -> (length (snd t) < 15 \/ length (fst t) < 15)%nat ->
  from_interpolated_data scale unscale project unproject ratios load d cycles <> Ok f.
Proof.
  intros scale unscale project unproject ratios load d cycles t f P L H. unfold from_interpolated_data in H. rewrite P in H. cbn [bind] in H. apply fit_ok in H as (w & rows & k & R & A & B & _). pose proof (width_rect _ _ _ R) as W. destruct R as (E & N & _).
  destruct (pivot_data_spec _ _ _ _ P) as (frames & groups & _ & _ & F & _). destruct L as [L|L].
  - rewrite E in L. unfold numbers in L. rewrite map_length in L. lia.
  - destruct (snd t) as [|r rest]; [destruct rows; [elim N; reflexivity | discriminate E]|]. inversion F as [|k0 ? ? ? (LR & _)]; subst. cbn [width_of] in B. lia.
Qed.
(** C137: what was fitted from files has no gaps: every file has the same points for every cycle taken. *)
Theorem C137_same_points : forall scale unscale project unproject ratios load d cycles t f, from_interpolated_data scale unscale project unproject ratios load d cycles = Ok f -> pivot_data load d cycles = Ok t ->
  exists frames, mapM load (file_list d) = Ok frames /\ forall g c x, In g frames -> In c cycles -> has_cycle g c -> InA Qeq x (fst t) -> exists y, reads g c x (Some y).
Proof.
  intros scale unscale project unproject ratios load d cycles t f H P. unfold from_interpolated_data in H. rewrite P in H. cbn [bind] in H. apply fit_ok in H as (w & rows & k & (E & _) & _).
  destruct (pivot_data_spec _ _ _ _ P) as (frames & groups & M & G & F & ND & _). exists frames. split; [exact M|]. intros g c x I C HC X.
  assert (K : In (g, c) (flat_map (fun '(f, cs) => map (pair f) cs) (combine frames groups))).
  { clear -G I C HC. induction G as [|a cs fs gs (_ & A) G IH]; [destruct I|]. cbn [combine flat_map]. apply in_or_app. destruct I as [->|I]; [left; apply in_map, A; split; assumption | right; apply IH; exact I]. }
  assert (R : exists row, In row (snd t) /\ holds (fst t) g c row).
  { clear -F K. induction F as [|a b l l' H F IH]; [destruct K|]. destruct K as [->|K]; [exists b; split; [left; reflexivity | exact H] | destruct (IH K) as (row & A & B); exists row; split; [right; exact A | exact B]]. }
  destruct R as (row & RI & LR & HR). apply InA_alt in X as (x' & XE & X). apply In_nth_error in X as (j & J). destruct (nth_error row j) as [v|] eqn:V; [|apply nth_error_None in V; assert (j < length (fst t))%nat by (apply nth_error_Some; congruence); lia].
  rewrite E in RI. unfold numbers in RI. apply in_map_iff in RI as (qs & <- & _). rewrite nth_error_map in V. destruct (nth_error qs j) as [q|] eqn:QJ; [|discriminate V]. cbn [option_map] in V. injection V as VV. exists q.
  destruct (HR j x' (Some q) J) as (H1 & H2); [rewrite nth_error_map, QJ; reflexivity|].
  assert (D : (exists y, reads g c x' y) \/ forall y, ~ reads g c x' y).
      { clear. induction g as [|r g IH]; [right; intros y (r & [] & _)|]. destruct (String.eqb_spec (p_type r) "discharge") as [T|T].
        - destruct (Z.eq_dec (p_cycle r) c) as [CC|CC]; [destruct (Qeq_dec (p_x r) x') as [XX|XX]|].
          + left. exists (p_y r), r. repeat split; auto. left. reflexivity.
          + destruct IH as [(y & r' & A & B)|IH]; [left; exists y, r'; split; [right; exact A | exact B]|]. right. intros y (r' & [<-|A] & T' & C' & X' & Y'); [contradiction | apply (IH y); exists r'; repeat split; assumption].
          + destruct IH as [(y & r' & A & B)|IH]; [left; exists y, r'; split; [right; exact A | exact B]|]. right. intros y (r' & [<-|A] & T' & C' & X' & Y'); [contradiction | apply (IH y); exists r'; repeat split; assumption].
        - destruct IH as [(y & r' & A & B)|IH]; [left; exists y, r'; split; [right; exact A | exact B]|]. right. intros y (r' & [<-|A] & T' & C' & X' & Y'); [contradiction | apply (IH y); exists r'; repeat split; assumption]. }
      destruct D as [(y & D)|D]; [|specialize (H2 D); discriminate H2]. pose proof (H1 y D) as <-. destruct D as (r & A & B & C' & X' & Y'). exists r. repeat split; try assumption. rewrite X'. symmetry. exact XE.
Qed.

(** C138: a row is flagged exactly if some component that has spread lies outside the two percentiles of the training data; the whitening makes no difference. *)
Theorem C138_flags : forall std root scale unscale project unproject ratios n threshold data f new upper lower ds flags, measures_spread std ->
  principal_components scale unscale project unproject ratios n threshold data = Ok f -> decomposition_outliers std root scale project f new upper lower = Ok (ds, flags) ->
  exists es (u l : nat -> Q), get_pca_embeddings scale project f new = Ok es /\ length ds = length new /\
    (forall j, is_percentile upper (column j (f_embeddings f)) (u j) /\ is_percentile lower (column j (f_embeddings f)) (l j)) /\
    Forall2 (fun e b => b = true <-> exists j, (j < n)%nat /\ ~ std (column j (f_embeddings f)) == 0 /\ (u j < nth j e 0 \/ nth j e 0 < l j)) es flags.
Proof.
  intros std root scale unscale project unproject ratios n t data f new up lo ds flags MS H O. destruct (outliers_ok _ _ _ _ _ _ _ _ _ _ O) as ((U0 & U1) & (L0 & L1) & es & E & -> & ->).
  assert (N : forall j, column j (f_embeddings f) <> []) by (intros j; eapply column_not_empty; exact H).
  assert (LE : length es = length new).
  { unfold get_pca_embeddings in E. destruct (rows_for f new) as [rows|] eqn:R; [|discriminate E]. cbn [bind] in E. injection E as <-. rewrite (rows_for_fit _ _ _ _ _ _ _ _ _ _ H) in R. apply complete_iff in R as (-> & _). unfold numbers. rewrite !map_length. reflexivity. }
  assert (NF : f_n f = n) by (apply fit_ok in H as (w & rows & k & _ & _ & _ & _ & ->); reflexivity).
  exists es, (limit f up), (limit f lo). split; [exact E|]. split; [rewrite map_length; exact LE|]. split; [intros j; split; [apply (limit_is f up j) | apply (limit_is f lo j)]; auto|].
  rewrite <- NF. clear E LE O. induction es as [|e es IH]; [constructor|]. cbn [map]. constructor; [|exact IH]. apply flagged_iff; try assumption; intros j; apply limit_is; auto.
Qed.
(** C138: no row of the training data is outside the percentiles 100 and 0. *)
Theorem C138_training : forall std root scale unscale project unproject ratios n threshold data f ds flags, measures_spread std ->
  principal_components scale unscale project unproject ratios n threshold data = Ok f -> decomposition_outliers std root scale project f data 100 0 = Ok (ds, flags) -> Forall (fun b => b = false) flags.
Proof.
  intros std root scale unscale project unproject ratios n t data f ds flags MS H O. destruct (outliers_ok _ _ _ _ _ _ _ _ _ _ O) as (_ & _ & es & E & _ & ->).
  assert (N : forall j, column j (f_embeddings f) <> []) by (intros j; eapply column_not_empty; exact H).
  assert (EE : es = f_embeddings f). { unfold get_pca_embeddings in E. rewrite (training_rows _ _ _ _ _ _ _ _ _ H) in E. cbn [bind] in E. apply fit_ok in H as (w & rows & k & _ & _ & _ & _ & ->). cbn [f_data f_n f_embeddings] in *. congruence. }
  apply Forall_forall. intros b I. apply in_map_iff in I as (e & <- & I). destruct (flagged std f 100 0 e) eqn:F; [exfalso|reflexivity].
  apply (flagged_iff std f 100 0 (limit f 100) (limit f 0)) in F as (j & _ & _ & X); try assumption; try (intros j; apply limit_is; auto); try lra. set (xs := column j (f_embeddings f)) in *.
  assert (IX : In (nth j e 0) xs) by (unfold xs, column; apply in_map_iff; exists e; split; [reflexivity | rewrite <- EE; exact I]).
  assert (FL : forall (p : Q -> bool), p (nth j e 0) = true -> (1 <= length (filter p xs))%nat).
  { intros p P. assert (J : In (nth j e 0) (filter p xs)) by (apply filter_In; split; assumption). destruct (filter p xs); [destruct J | cbn [length]; lia]. }
  destruct (limit_is f 100 j (N j) ltac:(lra) ltac:(lra)) as (P1 & _). destruct (limit_is f 0 j (N j) ltac:(lra) ltac:(lra)) as (P0 & _). fold xs in P1, P0.
  destruct (percentile_share xs 100 _ (N j) ltac:(lra) ltac:(lra) P1) as (G & _). destruct (percentile_share xs 0 _ (N j) ltac:(lra) ltac:(lra) P0) as (_ & S0).
  set (c := inject_Z (Z.of_nat (length xs))) in *. assert (Q1 : 100 / 100 * (c - 1) == c - 1) by field. assert (Q0 : 0 / 100 * (c - 1) == 0) by field. rewrite Q1 in G. rewrite Q0 in S0.
  destruct X as [X|X].
  - specialize (FL (Qlt_bool (limit f 100 j)) (proj2 (qlt_iff _ _) X)). fold (greater (limit f 100 j) xs) in FL. assert (1 <= Z.of_nat (greater (limit f 100 j) xs))%Z as Y by lia. rewrite Zle_Qle in Y. change (inject_Z 1) with 1 in Y. lra.
  - specialize (FL (fun x => Qlt_bool x (limit f 0 j)) (proj2 (qlt_iff _ _) X)). fold (smaller (limit f 0 j) xs) in FL. assert (1 <= Z.of_nat (smaller (limit f 0 j) xs))%Z as Y by lia. rewrite Zle_Qle in Y. change (inject_Z 1) with 1 in Y. lra.
Qed.
(** C138: percentiles further out flag no additional rows. *)
Theorem C138_wider : forall std root scale unscale project unproject ratios n threshold data f new up lo up' lo' ds flags ds' flags', measures_spread std ->
  principal_components scale unscale project unproject ratios n threshold data = Ok f -> up <= up' -> lo' <= lo ->
  decomposition_outliers std root scale project f new up lo = Ok (ds, flags) -> decomposition_outliers std root scale project f new up' lo' = Ok (ds', flags') ->
  ds = ds' /\ Forall2 (fun narrow wide => wide = true -> narrow = true) flags flags'.
Proof.
  intros std root scale unscale project unproject ratios n t data f new up lo up' lo' ds flags ds' flags' MS H UU LL O O'.
  destruct (outliers_ok _ _ _ _ _ _ _ _ _ _ O) as ((U0 & U1) & (L0 & L1) & es & E & -> & ->). destruct (outliers_ok _ _ _ _ _ _ _ _ _ _ O') as ((U0' & U1') & (L0' & L1') & es' & E' & -> & ->). rewrite E in E'. injection E' as <-.
  assert (N : forall j, column j (f_embeddings f) <> []) by (intros j; eapply column_not_empty; exact H). split; [reflexivity|]. clear E O O'. induction es as [|e es IH]; [constructor|]. cbn [map]. constructor; [|exact IH]. intros F.
  apply (flagged_iff std f up' lo' (limit f up') (limit f lo')) in F as (j & J & S0 & X); try assumption; try (intros j; apply limit_is; auto).
  apply (flagged_iff std f up lo (limit f up) (limit f lo)); try assumption; try (intros i; apply limit_is; auto). exists j. split; [exact J|]. split; [exact S0|].
  assert (A : limit f up j <= limit f up' j) by (apply (percentile_mono (column j (f_embeddings f)) up up'); try assumption; [apply N | apply limit_is; auto | apply limit_is; auto]).
  assert (B : limit f lo' j <= limit f lo j) by (apply (percentile_mono (column j (f_embeddings f)) lo' lo); try assumption; [apply N | apply limit_is; auto | apply limit_is; auto]).
  destruct X as [X|X]; [left | right]; lra.
Qed.
(** C138: in any one component, fewer training rows than the share asked for (and one more) lie beyond a percentile. *)
Theorem C138_share : forall xs p v, xs <> [] -> 0 <= p <= 100 -> percentile (map Some xs) p = Some v -> let n := inject_Z (Z.of_nat (length xs)) in
  is_percentile p xs v /\ inject_Z (Z.of_nat (greater v xs)) < (1 - p / 100) * (n - 1) + 1 /\ inject_Z (Z.of_nat (smaller v xs)) < p / 100 * (n - 1) + 1.
Proof.
  intros xs p v N (A & B) H n. destruct (percentile_is xs p N A B) as (v' & P & Q). rewrite H in P. injection P as <-. split; [exact Q|]. destruct (percentile_share xs p v N A B H) as (G & S0). fold n in G, S0. split; [|exact S0].
  setoid_replace ((1 - p / 100) * (n - 1) + 1) with (n - p / 100 * (n - 1)) by ring. exact G.
Qed.
(** C138: rows are judged one by one, whatever other rows come with them. *)
Theorem C138_one_by_one : forall std root scale project f a b upper lower da fa db fb,
  decomposition_outliers std root scale project f a upper lower = Ok (da, fa) -> decomposition_outliers std root scale project f b upper lower = Ok (db, fb) ->
  decomposition_outliers std root scale project f (a ++ b) upper lower = Ok (da ++ db, fa ++ fb).
Proof.
  intros std root scale project f a b up lo da fa db fb A B. unfold decomposition_outliers in *. destruct (negb _); [discriminate A|]. unfold get_pca_embeddings, rows_for in *. set (w := match f_data f with [] => 0%nat | r :: _ => length r end) in *.
  destruct (complete w a) as [ra|] eqn:CA; [|discriminate A]. destruct (complete w b) as [rb|] eqn:CB; [|discriminate B]. cbn [bind] in A, B. injection A as <- <-. injection B as <- <-. apply complete_iff in CA as (-> & NA & W & FA). apply complete_iff in CB as (-> & NB & _ & FB).
  assert (C : complete w (numbers ra ++ numbers rb) = Ok (ra ++ rb)). { apply complete_iff. split; [unfold numbers; rewrite map_app; reflexivity|]. split; [destruct ra; [elim NA; reflexivity | discriminate]|]. split; [exact W | apply Forall_app; split; assumption]. }
  rewrite C. cbn [bind]. rewrite !map_app. reflexivity.
Qed.
(** C138: the distance is that from the medians of the training data, in units of the spread of each component. *)
Theorem C138_distance : forall std root scale unscale project unproject ratios n threshold data f e, principal_components scale unscale project unproject ratios n threshold data = Ok f ->
  (forall j, (j < n)%nat -> 0 < std (column j (f_embeddings f))) ->
  exists mids q, (forall j, median (map Some (column j (f_embeddings f))) = Some (mids j)) /\ distance std root f e = Some (root q) /\
    q == qsum (map (fun j => ((nth j e 0 - mids j) / std (column j (f_embeddings f))) * ((nth j e 0 - mids j) / std (column j (f_embeddings f)))) (seq 0 n)).
Proof.
  intros std root scale unscale project unproject ratios n t data f e H S0. assert (NF : f_n f = n) by (apply fit_ok in H as (w & rows & k & _ & _ & _ & _ & ->); reflexivity). rewrite <- NF in *. apply distance_is; [intros j; eapply column_not_empty; exact H | exact S0].
Qed.
(** C138: a row is an outlier by reconstruction exactly if its mean error is more than the threshold times the largest of the training data. *)
Theorem C138_reconstruction : forall scale unscale project unproject ratios n threshold data f new t errs flags, principal_components scale unscale project unproject ratios n threshold data = Ok f ->
  reconstruction_outliers scale unscale project unproject f new t = Ok (errs, flags) ->
  exists rows m, new = numbers rows /\ errs = map (fun r => mean_error (rebuild scale unscale unproject n (f_data f) (embed scale project n (f_data f) r)) r) rows /\
    data = numbers (f_data f) /\ is_max m (map (fun r => mean_error (rebuild scale unscale unproject n (f_data f) (embed scale project n (f_data f) r)) r) (f_data f)) /\
    Forall2 (fun e b => b = true <-> m * t < e) errs flags.
Proof.
  intros scale unscale project unproject ratios n th data f new t errs flags H O. destruct (reconstruction_ok _ _ _ _ _ _ _ _ _ O) as (rows & m & R & M & -> & F).
  rewrite (rows_for_fit _ _ _ _ _ _ _ _ _ _ H) in R. apply complete_iff in R as (R & _). exists rows, m. apply fit_ok in H as (w & rs & k & (D & _) & _ & _ & _ & ->). cbn [f_data f_n f_errors] in *. split; [exact R|]. split; [reflexivity|]. split; [exact D|]. split; [exact M | exact F].
Qed.
(** C138: with a threshold of at least one, no row of the training data is an outlier by reconstruction. *)
Theorem C138_reconstruction_training : forall scale unscale project unproject ratios n threshold data f t errs flags, 1 <= t -> principal_components scale unscale project unproject ratios n threshold data = Ok f ->
  reconstruction_outliers scale unscale project unproject f data t = Ok (errs, flags) -> errs = f_errors f /\ Forall (fun b => b = false) flags.
Proof.
  intros scale unscale project unproject ratios n th data f t errs flags T H O. destruct (reconstruction_ok _ _ _ _ _ _ _ _ _ O) as (rows & m & R & (MI & M) & E & F).
  rewrite (training_rows _ _ _ _ _ _ _ _ _ H) in R. injection R as <-. assert (EE : errs = f_errors f) by (apply fit_ok in H as (w & rs & k & _ & _ & _ & _ & ->); exact E). split; [exact EE|].
  assert (M0 : 0 <= m). { rewrite <- EE, E in MI. apply in_map_iff in MI as (r & <- & _). apply mean_error_pos. }
  assert (A : forall x, In x errs -> x <= m) by (rewrite EE; exact M). clear -F A M0 T. induction F as [|x b l l' X F IH]; [constructor|]. constructor; [|apply IH; intros y Y; apply A; right; exact Y].
  destruct b; [|reflexivity]. pose proof (proj1 X eq_refl). pose proof (A x (or_introl eq_refl)). nra.
Qed.

(** C139: one row for every cycle asked for whose discharge a file has, file by file and from the first cycle to the last; every cell is the value recorded there, or missing. *)
Theorem C139_table : forall load d cycles t, pivot_data load d cycles = Ok t -> exists frames groups,
  mapM load (file_list d) = Ok frames /\ Forall2 (rows_of_frame cycles) frames groups /\
  Forall2 (fun k row => holds (fst t) (fst k) (snd k) row) (flat_map (fun '(f, cs) => map (pair f) cs) (combine frames groups)) (snd t) /\
  NoDupA Qeq (fst t) /\ (forall x, InA Qeq x (fst t) <-> exists f c y, In f frames /\ In c cycles /\ reads f c x y).
Proof. exact pivot_data_spec. Qed.
(** C139: the table is refused exactly if some file has two values for one cell. *)
Theorem C139_refused : forall load d cycles frames, mapM load (file_list d) = Ok frames ->
  (exists t, pivot_data load d cycles = Ok t) /\ Forall (fun f => ~ ambiguous cycles f) frames \/ pivot_data load d cycles = Err ValueError /\ Exists (ambiguous cycles) frames.
Proof. intros load d cycles frames M. unfold pivot_data. rewrite M. apply pivot_files_refused. Qed.
(** Finding (C139): runs marked as invalid in the file list are used like all others. *)
Theorem C139_validity_refuted : forall load files v v' cycles, pivot_data load {| file_list := files; validity := v |} cycles = pivot_data load {| file_list := files; validity := v' |} cycles.
Proof. reflexivity. Qed.
(** C139: the order in which cycles are asked for, and repetitions, make no difference. *)
Theorem C139_order : forall load d cycles cycles', (forall c, In c cycles <-> In c cycles') -> pivot_data load d cycles = pivot_data load d cycles'.
Proof.
  intros load d cs cs' H. assert (C : forall f, chosen cs f = chosen cs' f).
  { intros f. unfold chosen. apply filter_ext. intros r. f_equal. destruct (existsb _ cs) eqn:A, (existsb _ cs') eqn:B; try reflexivity; exfalso.
    - apply existsb_exists in A as (c & I & E). assert (existsb (Z.eqb (p_cycle r)) cs' = true); [|congruence]. apply existsb_exists. exists c. split; [apply H; exact I | exact E].
    - apply existsb_exists in B as (c & I & E). assert (existsb (Z.eqb (p_cycle r)) cs = true); [|congruence]. apply existsb_exists. exists c. split; [apply H; exact I | exact E]. }
  assert (P : forall frames acc, pivot_files cs frames acc = pivot_files cs' frames acc) by (induction frames as [|f frames IH]; intros acc; cbn [pivot_files]; [reflexivity|]; rewrite C; destruct (pivot (chosen cs' f)); [apply IH | reflexivity]).
  unfold pivot_data. destruct (mapM load (file_list d)); [apply P | reflexivity].
Qed.

(** Non-vacuity: two files, three cycles; the numbers differ per point. *)
Definition dis (c : Z) (x y : Q) : prow := {| p_cycle := c; p_type := "discharge"; p_x := x; p_y := Some y |}.
Definition file_a : list prow := [dis 2 3 5; dis 1 4 7; dis 1 3 6; dis 2 4 1; {| p_cycle := 1; p_type := "charge"; p_x := 9; p_y := Some 9 |}; dis 8 3 3].
Definition file_b : list prow := [dis 2 4 2; dis 2 3 4].
Definition loads (p : string) : result (list prow) := if String.eqb p "a" then Ok file_a else if String.eqb p "b" then Ok file_b else Err FileNotFoundError.
Definition pick (n : nat) (_ : list (list Q)) (r : list Q) : list Q := map (fun j => nth j r 0) (seq 0 n).
Definition pad (_ : nat) (_ : list (list Q)) (r : list Q) : list Q := r ++ [0].
Definition even_shares (n : nat) (_ : list (list Q)) : list Q := match n with O => [] | S k => 1 :: repeat 0 k end.
Example C139_example : pivot_data loads {| file_list := ["a"; "b"]%string; validity := [] |} [2; 1]%Z = Ok ([3; 4], [[Some 6; Some 7]; [Some 5; Some 1]; [Some 4; Some 2]]) /\
  pivot_data loads {| file_list := ["a"]%string; validity := [] |} [8; 1]%Z = Ok ([3; 4], [[Some 6; Some 7]; [Some 3; None]]).
Proof. split; reflexivity. Qed.
Example C137_example : components pick /\ shares even_shares /\
  exists f, principal_components (fun _ r => r) (fun _ r => r) pick pad even_shares 1 (9 # 10) [[Some 6; Some 7]; [Some 5; Some 1]; [Some 4; Some 2]] = Ok f /\ f_min f = 1%nat /\ f_embeddings f = [[6]; [5]; [4]].
Proof.
  split; [intros n data row; unfold pick; rewrite map_length, seq_length; reflexivity|]. split.
  { intros [|k] data; [repeat split; [constructor | cbn; lra]|]. unfold even_shares. cbn [length qsum]. rewrite repeat_length. split; [reflexivity|]. assert (R : qsum (repeat 0 k) == 0) by (induction k; cbn [repeat qsum]; [reflexivity | rewrite IHk; reflexivity]). split; [|rewrite R; lra].
    constructor; [lra|]. apply Forall_forall. intros x I. apply repeat_spec in I. subst. lra. }
  eexists. split; [reflexivity|]. split; reflexivity.
Qed.
Example C138_example : measures_spread (fun _ => 1) /\ exists f ds ds' errs,
  principal_components (fun _ r => r) (fun _ r => r) pick pad even_shares 1 (9 # 10) [[Some 6; Some 7]; [Some 5; Some 1]; [Some 4; Some 2]] = Ok f /\
  decomposition_outliers (fun _ => 1) (fun x => x) (fun _ r => r) pick f [[Some 7; Some 1]; [Some 5; Some 9]; [Some 3; Some 1]] 95 5 = Ok (ds, [true; false; true]) /\
  decomposition_outliers (fun _ => 1) (fun x => x) (fun _ r => r) pick f [[Some 6; Some 1]] 50 5 = Ok (ds', [true]) /\
  reconstruction_outliers (fun _ r => r) (fun _ r => r) pick pad f [[Some 6; Some 11]; [Some 5; Some 10]] (3 # 2) = Ok (errs, [true; false]).
Proof. split; [intros l; lra|]. eexists _, _, _, _. split; [reflexivity|]. split; [reflexivity|]. split; reflexivity. Qed.

Print Assumptions C137_components.
Print Assumptions C137_taken.
Print Assumptions C137_refused.
Print Assumptions C137_embeddings.
Print Assumptions C137_kept_refuted.
Print Assumptions C137_whole_variance_refuted.
Print Assumptions C137_fifteen_refuted.
Print Assumptions C137_same_points.
Print Assumptions C138_flags.
Print Assumptions C138_training.
Print Assumptions C138_wider.
Print Assumptions C138_share.
Print Assumptions C138_one_by_one.
Print Assumptions C138_distance.
Print Assumptions C138_reconstruction.
Print Assumptions C138_reconstruction_training.
Print Assumptions C139_table.
Print Assumptions C139_refused.
Print Assumptions C139_validity_refuted.
Print Assumptions C139_order.
Print Assumptions C139_example.
Print Assumptions C137_example.
Print Assumptions C138_example.
Print Assumptions C137_projected.
