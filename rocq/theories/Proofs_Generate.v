(** C45. *)
From Verif Require Import Py Num Model_Text Model_Procedure Model_Waveform Spec_Waveform Proofs_Waveform Proofs_Text Proofs_Strings Proofs_M2A Proofs_Datapath Proofs_Diagnostic Proofs_Procedure_Whole Model_Generate Spec_Generate.

(** ** Names *)
Lemma nulls_zeros k : nulls k = digits_text (zeros k).
Proof. induction k as [|k IH]; [reflexivity|]. cbn. rewrite IH. reflexivity. Qed.
Lemma nulls_length k : String.length (nulls k) = k.
Proof. induction k as [|k IH]; [reflexivity|]. cbn. rewrite IH. reflexivity. Qed.
Lemma padded_zfill n : padded n (zfill 6 (str_int (Z.of_nat n))).
Proof.
  unfold zfill. rewrite <- nulls_zeros. eexists. split; [reflexivity|]. rewrite app_length_s, nulls_length. lia.
Qed.
Lemma padded_unique n s s' : padded n s -> padded n s' -> s = s'.
Proof.
  intros (k & -> & L) (k' & -> & L'). rewrite app_length_s, nulls_length in L, L'. assert (k = k') as -> by lia. reflexivity.
Qed.
Lemma prefix_name r : run_name r (filename_prefix r).
Proof. eexists. split; [reflexivity | apply padded_zfill]. Qed.
Lemma run_name_unique r s : run_name r s -> s = filename_prefix r.
Proof. intros (n & -> & P). unfold filename_prefix. rewrite (padded_unique _ _ _ P (padded_zfill _)). reflexivity. Qed.
Lemma app_cancel_l (a b c : string) : (a ++ b = a ++ c)%string -> b = c.
Proof. induction a as [|x a IH]; cbn; [auto|]. intros [= H]. auto. Qed.
Lemma app_cancel_r (a b c : string) : (a ++ c = b ++ c)%string -> a = b.
Proof.
  revert b. induction a as [|x a IH]; intros [|y b] H; cbn in H; [reflexivity| | |].
  - apply (f_equal String.length) in H. cbn in H. rewrite app_length_s in H. lia.
  - apply (f_equal String.length) in H. cbn in H. rewrite app_length_s in H. lia.
  - injection H as -> H. f_equal. exact (IH b H).
Qed.
Lemma digits_text_app a b : (digits_text a ++ digits_text b)%string = digits_text (a ++ b).
Proof. induction a as [|x a IH]; cbn [digits_text append app]; [reflexivity | rewrite IH; reflexivity]. Qed.
Lemma zfill_digits w n : (0 <= n)%Z -> exists ds, zfill w (str_int n) = digits_text ds /\ Forall is_digit ds.
Proof.
  intros N. unfold zfill, str_int. destruct (n <? 0)%Z eqn:E; [apply Z.ltb_lt in E; lia|]. destruct (digits_of_spec n N) as (_ & B & _). rewrite digits_text_app.
  eexists. split; [reflexivity|]. apply Forall_app. split; [apply zeros_digit | exact B].
Qed.
Lemma char_free_list c s : ~ In c (list_ascii_of_string s) -> char_free c s.
Proof. induction s as [|x s IH]; intros H; [reflexivity|]. cbn in H. apply char_free_cons. split; [intros ->; apply H; left; reflexivity | apply IH; intros X; apply H; right; exact X]. Qed.
Lemma zfill_no_bar n : char_free "_" (zfill 6 (str_int (Z.of_nat n))).
Proof.
  destruct (zfill_digits 6 (Z.of_nat n) ltac:(lia)) as (ds & -> & F). apply char_free_list. apply digits_avoid; [exact F|]. cbn. tauto.
Qed.
Lemma prefix_inj r r' : filename_prefix r = filename_prefix r' -> project_name r = project_name r' /\ seq_num r = seq_num r'.
Proof.
  unfold filename_prefix. set (z := zfill 6 (str_int (Z.of_nat (seq_num r)))). set (z' := zfill 6 (str_int (Z.of_nat (seq_num r')))). intros H.
  pose proof (zfill_no_bar (seq_num r)) as F. pose proof (zfill_no_bar (seq_num r')) as F'. fold z in F. fold z' in F'.
  assert (E : z = z').
  { apply (f_equal (fun s => last (str_split "_" s) ""%string)) in H. cbn [append] in H. rewrite !(last_split "_") in H. rewrite !str_split_none in H by assumption. exact H. }
  split; [rewrite E in H; exact (app_cancel_r _ _ _ H)|]. apply (f_equal parse_int) in E. unfold z, z' in E. rewrite !parse_zfill in E by lia. injection E as E. lia.
Qed.

Section Rows.
  Variables (templates : string -> option steps) (formation : row -> result string).
  Variables (with_diagnostics : bool) (diagnostics : list (string * diag_param)).
  Variables (profiles : string -> result (list (Q * Q))) (charging_wave : row -> result (list segment)).
  Variables (out names_file : string).
  Notation do_row' := (do_row templates formation with_diagnostics diagnostics profiles charging_wave out).
  Notation do_rows' := (do_rows templates formation with_diagnostics diagnostics profiles charging_wave out).
  Notation supported' := (supported templates).
  Notation has_steps' := (has_steps templates).
  Notation asks' := (asks_for templates formation with_diagnostics diagnostics charging_wave out).
  Notation wave_file' := (wave_file_of out).
  Notation wave_for' := (wave_for profiles charging_wave).
  Notation file_for' := (file_for out).
  Notation under' := (under out).

  Definition path_of (r : row) : string := if String.eqb (template r) "formationV1.mps" then under' "settings" (filename_prefix r ++ ".mps") else under' "procedures" (filename_prefix r ++ ".000").
  Lemma path_file r : file_for' r (path_of r).
  Proof.
    exists (filename_prefix r). split; [apply prefix_name|]. unfold path_of, is_settings. destruct (String.eqb_spec (template r) "formationV1.mps") as [E|E]; [left | right]; (split; [exact E|reflexivity]).
  Qed.
  Lemma file_path r f : file_for' r f -> f = path_of r.
  Proof.
    intros (s & N & H). apply run_name_unique in N as ->. unfold path_of, is_settings in *. destruct (String.eqb_spec (template r) "formationV1.mps") as [E|E]; destruct H as [(X & ->)|(X & ->)]; try contradiction; reflexivity.
  Qed.
  Lemma path_inj r r' : path_of r = path_of r' -> project_name r = project_name r' /\ seq_num r = seq_num r'.
  Proof.
    unfold path_of, under. destruct (String.eqb (template r) "formationV1.mps"), (String.eqb (template r') "formationV1.mps"); intros H; apply app_cancel_l in H; try discriminate H; cbn [append] in H; repeat injection H as H;
      apply app_cancel_r in H; apply prefix_inj; exact H.
  Qed.
  Lemma path_no_wave r r' wp : wave_file' r' wp -> path_of r <> wp.
  Proof.
    intros H E. subst. unfold path_of, under in H. destruct (String.eqb (template r) "formationV1.mps"); destruct H as [(_ & H)|(_ & H)]; apply app_cancel_l in H; discriminate H.
  Qed.
  Lemma path_no_names r : path_of r <> under' "names" names_file.
  Proof. unfold path_of, under. destruct (String.eqb (template r) "formationV1.mps"); intros H; apply app_cancel_l in H; discriminate H. Qed.
  Lemma wave_no_names r wp : wave_file' r wp -> wp <> under' "names" names_file.
  Proof. unfold under. intros [(_ & ->)|(_ & ->)] H; apply app_cancel_l in H; discriminate H. Qed.
  Lemma wave_unique r p q : wave_file' r p -> wave_file' r q -> p = q.
  Proof. unfold wave_file_of, rapid, drive. intros [(A & ->)|(A & ->)] [(B & ->)|(B & ->)]; try reflexivity; rewrite A in B; discriminate. Qed.
  Lemma charging_path r : rapid r -> wave_file' r (wave_path out (charging_name r)).
  Proof.
    intros R. left. split; [exact R|]. unfold wave_path, under, charging_name. do 6 (try rewrite !app_assoc_s; cbn [append]). reflexivity.
  Qed.
  Lemma driving_path r : drive r -> wave_file' r (wave_path out (driving_name r)).
  Proof.
    intros R. right. split; [exact R|]. unfold wave_path, under, driving_name. do 6 (try rewrite !app_assoc_s; cbn [append]). reflexivity.
  Qed.
  Definition same_base (g g' : mwf_config) : Prop := forall profile d, insert_driving_parametersv1 g' profile d = insert_driving_parametersv1 g profile d.
  Lemma diagnostics_spec r d : diagnostic_params with_diagnostics diagnostics r = Ok d -> diagnostics_of with_diagnostics diagnostics r d.
  Proof.
    unfold diagnostic_params, diagnostics_of. destruct with_diagnostics; [|discriminate]. intros H. split; [reflexivity|]. revert H. set (k := diagnostic_parameter_set r).
    induction diagnostics as [|[a b] l IH]; [discriminate|]. cbn [filter fst]. destruct (String.eqb_spec a k) as [->|N].
    - destruct (filter _ l) as [|x m] eqn:F; [|discriminate]. intros [= <-]. exists [], l. split; [reflexivity|]. split; [intros []|]. intros I. apply in_map_iff in I as ([u v] & E & I). cbn in E. subst u.
      assert (X : In (k, v) (filter (fun d => String.eqb (fst d) k) l)) by (apply filter_In; split; [exact I | apply String.eqb_refl]). rewrite F in X. destruct X.
    - intros H. destruct (IH H) as (l1 & l2 & -> & A & B). exists ((a, b) :: l1), l2. split; [reflexivity|]. split; [|exact B]. intros [X|X]; [cbn in X; congruence | exact (A X)].
  Qed.
  Definition frame (r : row) (w w' : world) : Prop := forall path, path <> path_of r -> (forall wp, wave_file' r wp -> has_steps' r 96 -> path <> wp) -> sget (files w') path = sget (files w) path.
  Definition row_ok (i : Z) (r : row) (w w' : world) (o : outcome) : Prop :=
    frame r w w' /\ same_base (config w) (config w') /\
    match o with
    | Raised _ => True
    | Failed c e => ~ supported' r /\ reason r c e /\ w' = w
    | Made f => supported' r /\ f = path_of r /\ (exists c, asks' i r c /\ sget (files w') f = Some c) /\
        (has_steps' r 96 -> forall wp, wave_file' r wp -> exists segs, wave_for' (config w) r segs /\ sget (files w') wp = Some (CWave segs))
    end.
  Lemma frame_refl r w : frame r w w. Proof. intros path _ _. reflexivity. Qed.
  Lemma base_refl g : same_base g g. Proof. intros p d. reflexivity. Qed.
  Lemma finish_spec i r w path x w' o : finish w path x = (w', o) -> path = path_of r ->
    ~ has_steps' r 96 -> supported' r -> (forall c, x = Ok c -> asks' i r c) -> row_ok i r w w' o.
  Proof.
    unfold finish. intros H -> N S A. destruct x as [c|e]; injection H as <- <-.
    - split; [intros p P _; cbn; rewrite sget_sset; apply String.eqb_neq in P; rewrite P; reflexivity|]. split; [apply base_refl|]. split; [exact S|]. split; [reflexivity|].
      split; [|intros X; contradiction]. exists c. split; [apply A; reflexivity|]. cbn. rewrite sget_sset, String.eqb_refl. reflexivity.
    - split; [apply frame_refl|]. split; [apply base_refl | exact Logic.I].
  Qed.
  Lemma with_diag_ok add r p p' : with_diag with_diagnostics diagnostics add r p = Ok p' ->
    exists d, diagnostics_of with_diagnostics diagnostics r d /\ add (capacity_nominal (reg r)) d p = (p', None).
  Proof.
    unfold with_diag. destruct (diagnostic_params _ _ r) as [d|] eqn:D; [|discriminate]. cbn [bind]. intros H. exists d. split; [exact (diagnostics_spec r d D)|].
    destruct (add (capacity_nominal (reg r)) d p) as [q [e|]]; cbn in H; [discriminate|]. injection H as ->. reflexivity.
  Qed.
  Lemma done_ok x p : done x = Ok p -> x = (p, None).
  Proof. destruct x as [q [e|]]; [discriminate|]. intros [= ->]. reflexivity. Qed.
  Lemma driving_base g profile d : same_base g (fst (insert_driving_parametersv1 g profile d)).
  Proof. intros p e. exact (calls_independent [(profile, d)] g p e). Qed.
  Lemma long_spec i r w t w1 x : long_procedure with_diagnostics diagnostics profiles charging_wave out i r w t = (w1, x) -> templates (template r) = Some t -> has_steps' r 96 ->
    (forall path, (forall wp, wave_file' r wp -> path <> wp) -> sget (files w1) path = sget (files w) path) /\ same_base (config w) (config w1) /\
    forall p, x = Ok p -> asks' i r (CProcedure p) /\ forall wp, wave_file' r wp -> exists segs, wave_for' (config w) r segs /\ sget (files w1) wp = Some (CWave segs).
  Proof.
    intros H T N. unfold long_procedure in H. destruct (String.eqb_spec (project_name r) "RapidC") as [R|NR].
    - destruct (charging_wave r) as [segs|e] eqn:C; [|injection H as <- <-; split; [reflexivity|]; split; [apply base_refl | discriminate]].
      destruct (String.length (charging_name r) <? 25)%nat; [|injection H as <- <-; split; [reflexivity|]; split; [apply base_refl | discriminate]].
      pose proof (charging_path r R) as WF. set (path := wave_path out (charging_name r)) in *. assert (w1 = write w path (CWave segs)) as -> by congruence.
      match type of H with (_, ?y) = _ => assert (x = y) as -> by congruence end. clear H. split; [|split; [apply base_refl|]].
      + intros p P. cbn. rewrite sget_sset. specialize (P _ WF). apply String.eqb_neq in P. rewrite P. reflexivity.
      + intros p P. destruct (done _) as [p0|] eqn:D in P; [|discriminate]. cbn [bind] in P. apply done_ok in D. apply with_diag_ok in P as (d & DD & P). split.
        * eapply asks_rapid; eauto.
        * intros wp Wp. rewrite (wave_unique _ _ _ Wp WF). exists segs. split; [left; split; [exact R | exact C] | cbn; rewrite sget_sset, String.eqb_refl; reflexivity].
    - destruct (String.eqb_spec (project_name r) "Drive") as [R|ND].
      + destruct (profiles (discharge_profile r)) as [profile|e] eqn:C; [|injection H as <- <-; split; [reflexivity|]; split; [apply base_refl | discriminate]].
        pose proof (driving_base (config w) profile (drive_of r)) as SB. pose proof (driving_path r R) as WF. set (path := wave_path out (driving_name r)) in *.
        destruct (insert_driving_parametersv1 (config w) profile (drive_of r)) as [cfg y] eqn:ID. cbn [fst] in SB. destruct y as [segs|e]; [|injection H as <- <-; split; [reflexivity|]; split; [exact SB | discriminate]].
        assert (w1 = write {| files := files w; config := cfg |} path (CWave segs)) as -> by congruence.
        match type of H with (_, ?y) = _ => assert (x = y) as -> by congruence end. clear H. split; [|split; [exact SB|]].
        * intros p P. cbn. rewrite sget_sset. specialize (P _ WF). apply String.eqb_neq in P. rewrite P. reflexivity.
        * intros p P. destruct (done _) as [p0|] eqn:D in P; [|discriminate]. cbn [bind] in P. apply done_ok in D. apply with_diag_ok in P as (d & DD & P). split.
          -- eapply asks_drive; eauto.
          -- intros wp Wp. rewrite (wave_unique _ _ _ Wp WF). exists segs. split; [right; split; [exact R|]; exists profile; split; [exact C | rewrite ID; reflexivity] | cbn; rewrite sget_sset, String.eqb_refl; reflexivity].
      + assert (w1 = w) as -> by congruence. match type of H with (_, ?y) = _ => assert (x = y) as -> by congruence end. clear H. split; [reflexivity|]. split; [apply base_refl|].
        intros p P. destruct (done _) as [p0|] eqn:D in P; [|discriminate]. cbn [bind] in P. apply done_ok in D. apply with_diag_ok in P as (d & DD & P). split.
        * eapply asks_v3; eauto.
        * intros wp [(X & _)|(X & _)]; contradiction.
  Qed.
  Lemma has_iff piece s : contains piece s = true <-> has piece s. Proof. apply contains_iff. Qed.
  Lemma has_not piece s : contains piece s = false -> ~ has piece s.
  Proof. intros H X. apply has_iff in X. congruence. Qed.
  Lemma settings_no_000 r : is_settings r -> contains ".000" (template r) = false.
  Proof. intros ->. vm_compute. reflexivity. Qed.
  Lemma steps_unique r n m : has_steps' r n -> has_steps' r m -> n = m.
  Proof. intros (_ & t & T & <-) (_ & t' & T' & <-). congruence. Qed.
  Lemma row_spec i r w w' o : do_row' i r w = (w', o) -> row_ok i r w w' o.
  Proof.
    unfold do_row. destruct (contains ".000" (template r)) eqn:C0.
    - assert (PO : under' "procedures" (filename_prefix r ++ ".000") = path_of r).
      { unfold path_of. destruct (String.eqb_spec (template r) "formationV1.mps") as [E|]; [|reflexivity]. rewrite (settings_no_000 r E) in C0. discriminate. }
      apply has_iff in C0. assert (FAIL : (forall t, templates (template r) = Some t -> ~ (length t = 23%nat /\ template r = "EXP.000"%string) /\ length t <> 72%nat /\ length t <> 96%nat) -> (w, not_found r) = (w', o) -> row_ok i r w w' o).
      { intros NT [= <- <-]. split; [apply frame_refl|]. split; [apply base_refl|]. split; [|split; [|reflexivity]].
        - intros [((_ & t & T & L) & E)|[(_ & t & T & L)|[(_ & t & T & L)|S]]]; try (destruct (NT t T) as (A & B & D); tauto).
          apply settings_no_000 in S. apply has_iff in C0. congruence.
        - right. split; [tauto | split; reflexivity]. }
      destruct (templates (template r)) as [t|] eqn:T.
      + destruct (Nat.eqb_spec (length t) 23) as [L|L].
        * destruct (String.eqb_spec (template r) "EXP.000") as [E|E]; cbn [andb].
          -- intros H. rewrite PO in H. eapply finish_spec; [exact H | reflexivity | | |].
             ++ intros (_ & t' & T' & L'). rewrite T in T'. injection T' as <-. lia.
             ++ left. split; [split; [exact C0 | exists t; split; [exact T | exact L]] | exact E].
             ++ intros c X. unfold load in X. rewrite E in T. rewrite T in X. cbn [bind] in X. destruct (from_exp _ _ _ t) as [p|] eqn:F; [|discriminate]. injection X as <-. eapply asks_exp; eauto.
          -- destruct (Nat.eqb_spec (length t) 72) as [L2|_]; [lia|]. destruct (Nat.eqb_spec (length t) 96) as [L2|_]; [lia|]. apply FAIL. intros t' [= <-]. split; [tauto | lia].
        * cbn [andb]. destruct (Nat.eqb_spec (length t) 72) as [L2|L2].
          -- intros H. rewrite PO in H. assert (HS : has_steps' r 72) by (split; [exact C0 | exists t; split; [exact T | exact L2]]). eapply finish_spec; [exact H | reflexivity | | |].
             ++ intros X. pose proof (steps_unique _ _ _ HS X). discriminate.
             ++ right. left. exact HS.
             ++ intros c X. unfold load in X. destruct (templates "diagnosticV2.000") as [t2|] eqn:T2; [|discriminate]. cbn [bind] in X.
                destruct (done _) as [p0|] eqn:D in X; [|discriminate]. cbn [bind] in X. apply done_ok in D. destruct (with_diag _ _ _ _ p0) as [p|] eqn:P in X; [|discriminate]. cbn [bind] in X. injection X as <-.
                apply with_diag_ok in P as (d & DD & P). eapply asks_v2; eauto.
          -- destruct (Nat.eqb_spec (length t) 96) as [L3|L3].
             ++ assert (HS : has_steps' r 96) by (split; [exact C0 | exists t; split; [exact T | exact L3]]).
                destruct (long_procedure _ _ _ _ _ i r w t) as [w1 x] eqn:LP. destruct (long_spec i r w t w1 x LP T HS) as (F & SB & A). rewrite PO. unfold finish. destruct x as [p|e]; cbn [bind]; intros [= <- <-].
                ** destruct (A p eq_refl) as (AS & WV). split; [|split; [exact SB|]].
                   --- intros path P WP. cbn. rewrite sget_sset. apply String.eqb_neq in P. rewrite P. apply F. intros wp Wp. exact (WP wp Wp HS).
                   --- split; [right; right; left; exact HS|]. split; [reflexivity|]. split.
                       { exists (CProcedure p). split; [exact AS|]. cbn. rewrite sget_sset, String.eqb_refl. reflexivity. }
                       { intros _ wp Wp. destruct (WV wp Wp) as (segs & S1 & S2). exists segs. split; [exact S1|]. cbn. rewrite sget_sset. pose proof (path_no_wave r r wp Wp) as N. apply not_eq_sym, String.eqb_neq in N. rewrite N. exact S2. }
                ** split; [|split; [exact SB | exact Logic.I]]. intros path P WP. apply F. intros wp Wp. exact (WP wp Wp HS).
             ++ apply FAIL. intros t' [= <-]. split; [tauto | lia].
      + cbn [andb]. apply FAIL. discriminate.
    - destruct (String.eqb_spec (template r) "formationV1.mps") as [E|E].
      + assert (contains ".mps" (template r) = true) as -> by (rewrite E; vm_compute; reflexivity). cbn [andb].
        assert (PO : under' "settings" (filename_prefix r ++ ".mps") = path_of r) by (unfold path_of; rewrite E, String.eqb_refl; reflexivity). rewrite PO. intros H.
        eapply finish_spec; [exact H | reflexivity | | |].
        * intros (X & _). apply has_iff in X. congruence.
        * right. right. right. exact E.
        * intros c X. destruct (formation r) as [s|] eqn:F; [|discriminate]. injection X as <-. apply asks_formation; [exact E | exact F].
      + rewrite andb_false_r. apply has_not in C0. assert (NS : ~ supported' r) by (intros [((X & _) & _)|[(X & _)|[(X & _)|X]]]; contradiction).
        destruct (contains ".sdu" (template r)) eqn:C1; intros [= <- <-]; (split; [apply frame_refl|]; split; [apply base_refl|]; split; [exact NS|]; split; [|reflexivity]).
        * left. apply has_iff in C1. auto.
        * right. apply has_not in C1. split; [tauto | auto].
  Qed.

  (** ** The table *)
  Lemma rows_spec l : forall i w w' x, do_rows' i l w = (w', x) ->
    (forall path, (forall r, In r l -> path <> path_of r) -> (forall r wp, In r l -> wave_file' r wp -> has_steps' r 96 -> path <> wp) -> sget (files w') path = sget (files w) path) /\
    same_base (config w) (config w') /\
    forall os, x = Ok os -> map fst os = l /\ reported templates out l (made os) (failed os) (names os).
  Proof.
    induction l as [|r l IH]; intros i w w' x H; cbn [do_rows] in H.
    - injection H as <- <-. split; [reflexivity|]. split; [apply base_refl|]. intros os [= <-]. split; [reflexivity | constructor].
    - destruct (do_row' i r w) as [w1 o] eqn:R. apply row_spec in R as (F & SB & R). destruct o as [f|c e|e].
      3: { injection H as <- <-. split; [|split; [exact SB | discriminate]]. intros path P Wv. apply F; [apply P; left; reflexivity|]. intros wp A B. apply (Wv r); [left; reflexivity | exact A | exact B]. }
      all: destruct (do_rows' (i + 1)%Z l w1) as [w2 y] eqn:T; injection H as <- <-; destruct (IH _ _ _ _ T) as (F2 & SB2 & A2).
      all: split; [intros path P Wv; rewrite F2; [apply F; [apply P; left; reflexivity | intros wp A B; apply (Wv r); [left; reflexivity | exact A | exact B]] | intros; apply P; right; assumption | intros; eapply Wv; [right; eassumption | eassumption | eassumption]]|].
      all: split; [intros p d; rewrite SB2; apply SB|]; intros os OS; destruct y as [os'|]; [|discriminate]; injection OS as <-; destruct (A2 os' eq_refl) as (M & RP); (split; [cbn [map fst]; rewrite M; reflexivity|]).
      + destruct R as (S & -> & _). cbn. apply reported_made; [exact S | apply path_file | apply prefix_name | exact RP].
      + destruct R as (S & RE & _). cbn. apply reported_failed; [exact S | exact RE | exact RP].
  Qed.
  Lemma rows_contents l : forall i w w' os, do_rows' i l w = (w', Ok os) -> distinct_runs l ->
    forall k r, nth_error l k = Some r -> supported' r -> exists c, asks' (i + Z.of_nat k) r c /\ sget (files w') (path_of r) = Some c.
  Proof.
    induction l as [|r0 l IH]; intros i w w' os H D k r K S; [destruct k; discriminate|]. cbn [do_rows] in H. inversion D as [|? ? NI D']; subst.
    destruct (do_row' i r0 w) as [w1 o] eqn:R. apply row_spec in R as (F & SB & R). destruct o as [f|c e|e]; [| |discriminate].
    all: destruct (do_rows' (i + 1)%Z l w1) as [w2 y] eqn:T; assert (w2 = w') as -> by congruence; destruct y as [os'|]; [|discriminate].
    all: destruct k as [|k]; cbn [nth_error] in K; [injection K as -> | destruct (IH _ _ _ _ T D' k r K S) as (c0 & A & B); exists c0; split; [replace (i + Z.of_nat (Datatypes.S k))%Z with (i + 1 + Z.of_nat k)%Z by lia; exact A | exact B]].
    - destruct R as (_ & -> & (c & A & B) & _). exists c. split; [rewrite Z.add_0_r; exact A|]. destruct (rows_spec l _ _ _ _ T) as (F2 & _). rewrite F2; [exact B| |].
      + intros r' I E. apply path_inj in E as (E1 & E2). apply NI. apply in_map_iff. exists r'. split; [congruence | exact I].
      + intros r' wp I Wp _. apply (path_no_wave r r' wp Wp).
    - destruct R as (NS & _). contradiction.
  Qed.
  Lemma rows_waves l : forall i w w' os, do_rows' i l w = (w', Ok os) ->
    forall k r wp, nth_error l k = Some r -> has_steps' r 96 -> wave_file' r wp -> own_wave templates out l k r -> exists segs, wave_for' (config w) r segs /\ sget (files w') wp = Some (CWave segs).
  Proof.
    induction l as [|r0 l IH]; intros i w w' os H k r wp K S Wp O; [destruct k; discriminate|]. cbn [do_rows] in H.
    destruct (do_row' i r0 w) as [w1 o] eqn:R. apply row_spec in R as (F & SB & R). destruct o as [f|c e|e]; [| |discriminate].
    all: destruct (do_rows' (i + 1)%Z l w1) as [w2 y] eqn:T; assert (w2 = w') as -> by congruence; destruct y as [os'|]; [|discriminate].
    all: destruct k as [|k]; cbn [nth_error] in K; [injection K as -> |].
    2, 4: destruct (IH _ _ _ _ T k r wp K S Wp) as (segs & A & B);
      [intros k' r' path NE N' HS PF; exact (O (Datatypes.S k') r' path ltac:(congruence) N' HS PF)|]; exists segs; split; [|exact B];
      destruct A as [A|(A1 & profile & A2 & A3)]; [left; exact A | right; split; [exact A1|]; exists profile; split; [exact A2|]; rewrite <- SB; exact A3].
    - destruct R as (_ & _ & _ & Wv). destruct (Wv S wp Wp) as (segs & A & B). exists segs. split; [exact A|]. destruct (rows_spec l _ _ _ _ T) as (F2 & _). rewrite F2; [exact B| |].
      + intros r' I. apply not_eq_sym, (path_no_wave r' r wp Wp).
      + intros r' wp' I Wp' HS E. subst. apply In_nth_error in I as (k' & K'). exact (O (Datatypes.S k') r' wp' ltac:(discriminate) K' HS Wp Wp').
    - destruct R as (NS & _). exfalso. apply NS. right. right. left. exact S.
  Qed.
End Rows.
