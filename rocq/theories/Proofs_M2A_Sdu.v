(** Lemmas for C40, C69, C70: the whole schedule. *)
From Verif Require Import Py Num Model_Text Model_Arbin Model_M2A Spec_Numeral Spec_Arbin Spec_M2A
  Proofs_Strings Proofs_Text Proofs_Numeral Proofs_Diagnostic Proofs_Datapath Proofs_Structure Proofs_Arbin Proofs_Arbin_Set Proofs_M2A.

(** ** Compiled steps have each key once *)
Lemma sset_nodup {V} (d : list (string * V)) k v : NoDup (map fst d) -> NoDup (map fst (sset d k v)).
Proof.
  intro N. rewrite sset_keys. destruct (smem d k) eqn:M; [exact N|]. apply NoDup_app_iff. split; [exact N|]. split; [repeat constructor; intros []|].
  intros x X [<-|[]]. apply smem_in in X. congruence.
Qed.
Lemma limit_with_nodup kvs : NoDup (map fst (limit_with kvs)).
Proof.
  unfold limit_with. cut (forall d : list (string * string), NoDup (map fst d) -> NoDup (map fst (fold_left (fun d kv => sset d (fst kv) (snd kv)) kvs d))).
  - intro H. apply H. unfold blank_limit. cbn [map fst]. repeat (constructor; [cbn; intuition discriminate|]). constructor.
  - induction kvs as [|[k v] kvs IH]; intros d N; [exact N|]. cbn [fold_left fst snd]. apply IH. apply sset_nodup. exact N.
Qed.
Lemma as_node_distinct l : NoDup (map fst l) -> distinct (as_node l).
Proof.
  intro N. unfold as_node. constructor.
  - rewrite map_map. cbn [fst]. exact N.
  - apply Forall_forall. intros x I. apply in_map_iff in I. destruct I as (y & <- & _). constructor.
Qed.
Lemma convert_end_with show ctrl e i names ty flow l : convert_end show ctrl e i names ty flow = Ok l -> exists kvs, l = limit_with kvs.
Proof.
  unfold convert_end. intro H. destruct (fld e "Step") as [step|]; [|discriminate]. cbn [bind] in H.
  destruct (if String.eqb step _ then _ else _) as [goto|]; [|discriminate]. cbn [bind] in H. destruct (fld e "EndType") as [t|]; [|discriminate]. cbn [bind] in H.
  match type of H with bind ?r _ = _ => destruct r as [rest|] end; [|discriminate]. cbn [bind] in H. injection H as <-. eexists. reflexivity.
Qed.
Lemma convert_report_with show r l : convert_report show r = Ok l -> exists kvs, l = limit_with kvs.
Proof.
  unfold convert_report. intro H. destruct (fld r "ReportType") as [t|]; [|discriminate]. cbn [bind] in H.
  match type of H with bind ?r _ = _ => destruct r as [rest|] end; [|discriminate]. cbn [bind] in H. injection H as <-. eexists. reflexivity.
Qed.
Lemma mapM_forall {A B} (f : A -> result B) (P : B -> Prop) l ys : (forall x y, f x = Ok y -> P y) -> mapM f l = Ok ys -> Forall P ys.
Proof. intros H M. apply mapM_ok in M. induction M; constructor; eauto. Qed.
Lemma end_limits_with show b ends i names ty flow els : end_limits show b ends i names ty flow = Ok els -> Forall (fun l => NoDup (map fst l)) els.
Proof.
  unfold end_limits. destruct ends as [|e|es]; intro H.
  - injection H as <-. constructor; [apply limit_with_nodup|constructor].
  - destruct (convert_end show (ctrl_type b) e i names ty flow) as [l|] eqn:E; [|discriminate]. injection H as <-. apply convert_end_with in E. destruct E as (kvs & ->). constructor; [apply limit_with_nodup|constructor].
  - eapply mapM_forall; [|exact H]. intros x y E. apply convert_end_with in E. destruct E as (kvs & ->). apply limit_with_nodup.
Qed.
Lemma report_limits_with show st ends rls start : report_limits show st ends rls start -> Forall (fun l => NoDup (map fst l)) rls.
Proof.
  unfold report_limits. destruct (a_reports st) as [|r|rs]; intro H.
  - subst. constructor.
  - destruct H as (_ & l & E & ->). apply convert_report_with in E. destruct E as (kvs & ->). constructor; [apply limit_with_nodup|constructor].
  - destruct ends as [|e|es]; [destruct H|subst; constructor|]. destruct H as [_ H]. eapply mapM_forall; [|exact H]. intros x y E. apply convert_report_with in E. destruct E as (kvs & ->). apply limit_with_nodup.
Qed.
Lemma keyed_keys k ls : map fst (keyed k ls) = map limit_key (seq k (length ls)).
Proof. revert k. induction ls as [|l ls IH]; intro k; cbn [keyed map length seq fst]; [reflexivity|]. rewrite IH. reflexivity. Qed.
Lemma limit_keys_nodup l : NoDup l -> NoDup (map limit_key l).
Proof. intro N. apply FinFun.Injective_map_NoDup; [|exact N]. intros a b. apply limit_key_inj. Qed.
Lemma keyed_distinct k ls : Forall (fun l => NoDup (map fst l)) ls -> Forall (fun kv => distinct (snd kv)) (keyed k ls).
Proof. intro F. revert k. induction F as [|l ls N F IH]; intro k; cbn [keyed]; constructor; [apply as_node_distinct; exact N|apply IH]. Qed.
Lemma compile_distinct show st i names flow cr b' st' : compile show st i names flow cr = Ok (b', st') -> distinct (Dict b').
Proof.
  intro H. destruct (compile_shape _ _ _ _ _ _ _ _ H) as (b0 & b & ends & els & rls & start & _ & _ & _ & EL & RL & LS & -> & F & _).
  pose proof F as [FK FL]. constructor.
  - rewrite !map_app, !keyed_keys. apply NoDup_app_iff. split; [rewrite FK; unfold blank_body; cbn [map fst]; repeat (constructor; [cbn; intuition discriminate|]); constructor|]. split.
    + apply NoDup_app_iff. split; [apply limit_keys_nodup, seq_NoDup|]. split; [apply limit_keys_nodup, seq_NoDup|].
      intros x X Y. apply in_map_iff in X, Y. destruct X as (a & <- & A), Y as (c & C & B). apply limit_key_inj in C. subst c. apply in_seq in A, B.
      destruct rls; [cbn in B; lia|]. assert (length els <= start)%nat by (apply LS; discriminate). lia.
    + intros x X Y. assert (K : exists k, x = limit_key k) by (rewrite <- map_app in Y; apply in_map_iff in Y; destruct Y as (k & <- & _); eauto).
      destruct K as (k & ->). apply smem_in in X. rewrite (fields_limit b k F) in X. discriminate.
  - apply Forall_app. split.
    + eapply Forall_impl; [|exact FL]. intros a (v & E). cbn. rewrite E. constructor.
    + apply Forall_app. split; apply keyed_distinct; [eapply end_limits_with|eapply report_limits_with]; eassumption.
Qed.

(** ** Setting sections of the schedule *)
Lemma apart_keys k j r : k <> j -> apart ["Schedule"; k]%string ("Schedule" :: j :: r)%string.
Proof. intro NE. split; intros t E; injection E as E _; congruence. Qed.
Lemma apart_other k j r : j <> "Schedule"%string -> apart ["Schedule"; k]%string (j :: r).
Proof. intro NE. split; intros t E; injection E as E _; congruence. Qed.
Lemma step_key_plain i : avoids ["."]%char (step_key i).
Proof.
  unfold step_key. intros c I J. change (list_ascii_of_string ("Step" ++ str_int (Z.of_nat i))) with ("S" :: "t" :: "e" :: "p" :: list_ascii_of_string (str_int (Z.of_nat i)))%char in I.
  cbn [In] in I. destruct J as [<-|[]]. repeat (destruct I as [I|I]; [discriminate|]). exact (nat_text_avoids i "." ltac:(cbn; auto) _ I (or_introl eq_refl)).
Qed.
Lemma step_key_inj a b : step_key a = step_key b -> a = b.
Proof. unfold step_key. intro H. cbn in H. injection H as H. apply str_int_inj in H; lia. Qed.
Lemma compile_steps_spec show names flow cr : forall steps i s s' sts, distinct s -> compile_steps show steps i names flow cr s = Ok (s', sts) ->
  distinct s' /\ length sts = length steps /\
  (forall j st, nth_error steps j = Some st -> exists b st', compile show st (i + j) names flow cr = Ok (b, st') /\ nth_error sts j = Some st' /\ get_keys ["Schedule"; step_key (i + j)]%string s' = Some (Dict b)) /\
  (forall q, (forall j, (j < length steps)%nat -> apart ["Schedule"; step_key (i + j)]%string q) -> get_keys q s' = get_keys q s).
Proof.
  induction steps as [|st steps IH]; intros i s s' sts D H; cbn [compile_steps] in H.
  - injection H as <- <-. split; [exact D|]. split; [reflexivity|]. split; [intros j x E; destruct j; discriminate|reflexivity].
  - destruct (compile show st i names flow cr) as [[b st']|] eqn:C; [|discriminate]. cbn [bind fst snd] in H.
    destruct (set_path ("Schedule.Step" ++ str_int (Z.of_nat i)) (Dict b) s) as [s1|] eqn:SP; [|discriminate]. cbn [bind] in H.
    destruct (compile_steps show steps (S i) names flow cr s1) as [[s2 r]|] eqn:CS; [|discriminate]. cbn [bind fst snd] in H. injection H as <- <-.
    change ("Schedule.Step" ++ str_int (Z.of_nat i))%string with ("Schedule." ++ step_key i)%string in SP. unfold set_path in SP. rewrite (split1 _ (step_key_plain i)) in SP.
    pose proof (set_distinct _ _ _ _ D (compile_distinct _ _ _ _ _ _ _ _ C) SP) as D1.
    destruct (IH (S i) s1 s2 r D1 CS) as (D2 & LN & G & FR). split; [exact D2|]. split; [cbn; congruence|]. split.
    + intros j x E. destruct j as [|j].
      * injection E as <-. rewrite Nat.add_0_r. exists b, st'. split; [exact C|]. split; [reflexivity|]. rewrite FR.
        -- rewrite <- (app_nil_r ["Schedule"; step_key i]%string). rewrite (get_set_below _ [] _ _ _ SP). reflexivity.
        -- intros j J. apply apart_keys. intro X. apply step_key_inj in X. lia.
      * replace (i + S j)%nat with (S i + j)%nat by lia. apply G. exact E.
    + intros q A. rewrite FR.
      * apply (get_set_apart _ _ _ _ _ SP). specialize (A 0%nat ltac:(cbn; lia)). rewrite Nat.add_0_r in A. exact A.
      * intros j J. specialize (A (S j) ltac:(cbn; lia)). replace (i + S j)%nat with (S i + j)%nat in A by lia. exact A.
Qed.
Lemma set_paths_spec : forall kvs s s', distinct s -> NoDup (map fst kvs) -> Forall (fun kv => avoids ["."]%char (fst kv) /\ distinct (snd kv)) kvs -> set_paths kvs s = Ok s' ->
  distinct s' /\ (forall k v, In (k, v) kvs -> get_keys ["Schedule"; k]%string s' = Some v) /\
  (forall q, (forall k, In k (map fst kvs) -> apart ["Schedule"; k]%string q) -> get_keys q s' = get_keys q s).
Proof.
  induction kvs as [|[k v] kvs IH]; intros s s' D N F H; cbn [set_paths] in H.
  - injection H as <-. split; [exact D|]. split; [intros k v []|reflexivity].
  - destruct (set_path ("Schedule." ++ k) v s) as [s1|] eqn:SP; [|discriminate]. cbn [bind] in H. inversion F as [|? ? [A DV] F']; subst. cbn [fst snd] in *. inversion N as [|? ? NI N']; subst.
    unfold set_path in SP. rewrite (split1 _ A) in SP. pose proof (set_distinct _ _ _ _ D DV SP) as D1. destruct (IH s1 s' D1 N' F' H) as (D2 & G & FR). split; [exact D2|]. split.
    + intros j w [E|I]; [|apply G; exact I]. injection E as <- <-. rewrite FR.
      * rewrite <- (app_nil_r ["Schedule"; k]%string). rewrite (get_set_below _ [] _ _ _ SP). reflexivity.
      * intros j J. apply apart_keys. intro X. subst j. exact (NI J).
    + intros q X. rewrite FR; [|intros j J; apply X; right; exact J]. apply (get_set_apart _ _ _ _ _ SP). apply X. left. reflexivity.
Qed.

(** ** Numbered keys *)
Lemma numbered_iff p k : numbered p k = true <-> exists r, k = (p ++ r)%string /\ digit_first r.
Proof.
  unfold numbered. assert (SUB : forall p r, String.substring (String.length p) 1 (p ++ r) = String.substring 0 1 r) by (induction p0 as [|c p0 IH]; intro r; [reflexivity|]; cbn; apply IH).
  split.
  - intro H. apply andb_true_iff in H. destruct H as [H1 H2]. apply prefix_iff in H1. destruct H1 as (r & ->). exists r. split; [reflexivity|]. rewrite SUB in H2.
    destruct r as [|c r]; [discriminate|]. replace (String.substring 0 1 (String c r)) with (String c "") in H2 by (cbn; destruct r; reflexivity).
    destruct (digit_of c) as [d|] eqn:E; [|discriminate]. apply digit_of_inv in E. destruct E as [E ->]. exists d, r. split; [exact E|]. rewrite (sign_char d E). reflexivity.
  - intros (r & -> & d & r' & D & ->). apply andb_true_iff. split; [apply prefix_iff; eauto|]. rewrite SUB.
    replace (String.substring 0 1 (String (digit_sign d) r')) with (String (digit_sign d) "") by (cbn [String.substring]; destruct r'; reflexivity). rewrite (sign_char d D), (digit_of_char d D). reflexivity.
Qed.
Lemma step_numbered k : numbered "Step" k = true <-> step_named k.
Proof. exact (numbered_iff "Step" k). Qed.
Lemma step_key_named i : step_named (step_key i).
Proof.
  exists (str_int (Z.of_nat i)). split; [reflexivity|]. destruct (str_int_digits i) as (-> & F & NE). destruct (digits_of (Z.of_nat i)) as [|d ds]; [contradiction|].
  inversion F; subst. exists d, (digits_text ds). split; [assumption|]. cbn [digits_text]. rewrite sign_char by assumption. reflexivity.
Qed.
Lemma filter_get {V} (f : string -> bool) (d : list (string * V)) k : sget (filter (fun kv => f (fst kv)) d) k = if f k then sget d k else None.
Proof.
  unfold sget. induction d as [|[a v] d IH]; cbn; [destruct (f k); reflexivity|]. destruct (f a) eqn:E; cbn.
  - destruct (String.eqb_spec k a) as [->|]; [rewrite E; reflexivity|exact IH].
  - destruct (String.eqb_spec k a) as [->|]; [rewrite IH, E; reflexivity|exact IH].
Qed.
Lemma filter_nodup {V} (f : string * V -> bool) (d : list (string * V)) : NoDup (map fst d) -> NoDup (map fst (filter f d)).
Proof.
  induction d as [|[a v] d IH]; intro N; [constructor|]. cbn in *. inversion N; subst. destruct (f (a, v)); [|auto]. cbn. constructor; [|auto].
  intro I. apply in_map_iff in I. destruct I as (x & X & I). apply filter_In in I. destruct I as [I _]. apply H1. rewrite <- X. apply in_map. exact I.
Qed.
Lemma filter_forall {A} (f : A -> bool) (P : A -> Prop) l : Forall P l -> Forall P (filter f l).
Proof. intro F. apply Forall_forall. intros x I. apply filter_In in I. rewrite Forall_forall in F. apply F. tauto. Qed.

Definition scope_values (steps : list astep) (v t c : string) (temp : bool) : list (string * node) :=
  [("m_uStepNum", Leaf (str_int (Z.of_nat (length steps)))); ("m_VoltageSafetyScope", Leaf v); ("m_AuxTempSafetyScope", Leaf t); ("m_CurrentSafetyScope", Leaf c)]%string ++
  (if temp then [("m_AuxSafetyEnabled", Leaf "0^0 ; 1^1 ; 2^0 ; 3^0 ; 4^0 ; 5^0 ; 6^0 ; 7^0 ; 8^0 ; 9^0 ; 10^0 ; 11^0")]%string else []).
Lemma create_sdu_spec show steps cr v t c temp s names0 s' sts : distinct s -> steps_are s names0 -> plain_names names0 -> create_sdu show steps cr (v, t, c) temp s = Ok (s', sts) ->
  distinct s' /\ length sts = length steps /\ exists flow, create_metadata steps = Ok (labels 0 steps, flow) /\
  (forall j st, nth_error steps j = Some st -> exists b st', compile show st j (labels 0 steps) flow cr = Ok (b, st') /\ nth_error sts j = Some st' /\ get_keys ["Schedule"; step_key j]%string s' = Some (Dict b)) /\
  (forall k n, In (k, n) (scope_values steps v t c temp) -> get_keys ["Schedule"; k]%string s' = Some n) /\
  (forall k r, k <> "Schedule"%string -> get_keys (k :: r) s' = get_keys (k :: r) s) /\
  (forall k r, ~ step_named k -> ~ In k (map fst (scope_values steps v t c temp)) -> get_keys ("Schedule" :: k :: r)%string s' = get_keys ("Schedule" :: k :: r)%string s) /\
  (forall k r, step_named k -> (forall j, (j < length steps)%nat -> k <> step_key j) -> get_keys ("Schedule" :: k :: r)%string s' = None).
Proof.
  intros D (kvs & sched & -> & IS & ->) PN H. unfold create_sdu in H. inversion D as [|? ND FD]; subst. pose proof (proj2 (sget_in _ _ _ ND) IS) as GS. rewrite GS in H.
  pose proof FD as FD'. rewrite Forall_forall in FD'. specialize (FD' _ IS). cbn [snd] in FD'. inversion FD' as [|? NDs FDs]; subst.
  set (isS := fun k => negb (numbered "Step" k) && numbered "UserDefineSafety" k) in *. set (isK := fun k => negb (numbered "Step" k) && negb (numbered "UserDefineSafety" k)) in *.
  change (filter (fun kv : string * node => negb (numbered "Step" (fst kv)) && numbered "UserDefineSafety" (fst kv)) sched) with (filter (fun kv => isS (fst kv)) sched) in H.
  change (filter (fun kv : string * node => negb (numbered "Step" (fst kv)) && negb (numbered "UserDefineSafety" (fst kv))) sched) with (filter (fun kv => isK (fst kv)) sched) in H.
  set (safety := filter (fun kv => isS (fst kv)) sched) in *. set (kept := filter (fun kv => isK (fst kv)) sched) in *. set (s0 := Dict (sset kvs "Schedule" (Dict kept))) in *.
  destruct (create_metadata steps) as [[names flow]|] eqn:CM; [|discriminate]. cbn [bind] in H. pose proof (metadata_names _ _ _ CM) as EN. subst names.
  rewrite labels_length in H. fold (scope_values steps v t c temp) in H.
  destruct (set_paths (scope_values steps v t c temp) s0) as [s1|] eqn:S1; [|discriminate]. cbn [bind] in H.
  destruct (compile_steps show steps 0 (labels 0 steps) flow cr s1) as [[s2 sts']|] eqn:CS; [|discriminate]. cbn [bind fst snd] in H.
  destruct (set_paths safety s2) as [s3|] eqn:S3; [|discriminate]. cbn [bind] in H. injection H as <- <-.
  assert (D0 : distinct s0).
  { constructor; [apply sset_nodup; exact ND|]. apply (sset_forall distinct); [exact FD|]. constructor; [apply filter_nodup; exact NDs|apply filter_forall; exact FDs]. }
  assert (SV : NoDup (map fst (scope_values steps v t c temp))) by (unfold scope_values; destruct temp; cbn [map fst app]; repeat (constructor; [cbn; intuition discriminate|]); constructor).
  assert (SF : Forall (fun kv => avoids ["."]%char (fst kv) /\ distinct (snd kv)) (scope_values steps v t c temp)).
  { unfold scope_values. destruct temp; cbn [app]; repeat (constructor; [split; [apply literal_avoids; reflexivity|constructor]|]); constructor. }
  destruct (set_paths_spec _ _ _ D0 SV SF S1) as (D1 & G1 & F1).
  destruct (compile_steps_spec show (labels 0 steps) flow cr _ _ _ _ _ D1 CS) as (D2 & LN & G2 & F2).
  assert (SA : Forall (fun kv => avoids ["."]%char (fst kv) /\ distinct (snd kv)) safety).
  { apply filter_forall. rewrite Forall_forall in FDs |- *. intros x I. split; [|apply FDs; exact I]. unfold plain_names in PN. rewrite Forall_forall in PN. apply PN. apply in_map. exact I. }
  destruct (set_paths_spec _ _ _ D2 (filter_nodup _ _ NDs) SA S3) as (D3 & G3 & F3).
  assert (SK : forall k, In k (map fst safety) -> numbered "Step" k = false /\ numbered "UserDefineSafety" k = true).
  { intros k I. apply in_map_iff in I. destruct I as (x & <- & I). apply filter_In in I. destruct I as [_ I]. unfold isS in I. apply andb_true_iff in I. rewrite negb_true_iff in I. exact I. }
  assert (NS : forall k, step_named k -> ~ In k (map fst safety)) by (intros k X I; apply step_numbered in X; destruct (SK k I); congruence).
  assert (SC : forall k, In k (map fst (scope_values steps v t c temp)) -> numbered "Step" k = false /\ numbered "UserDefineSafety" k = false).
  { intros k I. unfold scope_values in I. destruct temp; cbn [app map fst In] in I; repeat (destruct I as [<-|I]; [split; reflexivity|]); destruct I. }
  split; [exact D3|]. split; [exact LN|]. exists flow. split; [reflexivity|]. split; [|split; [|split; [|split]]].
  - intros j st E. destruct (G2 j st E) as (b & st' & A & B & C). exists b, st'. split; [exact A|]. split; [exact B|]. rewrite F3; [exact C|].
    intros k K. apply apart_keys. intro X. subst k. exact (NS _ (step_key_named j) K).
  - intros k n I. assert (IK : In k (map fst (scope_values steps v t c temp))) by (change k with (fst (k, n)); apply in_map; exact I). destruct (SC k IK) as [N1 N2].
    rewrite F3, F2; [apply G1; exact I| |].
    + intros j _. apply apart_keys. intro X. subst k. pose proof (proj2 (step_numbered _) (step_key_named j)). cbn [Nat.add] in *. congruence.
    + intros x X. apply apart_keys. intro Y. subst x. destruct (SK k X). congruence.
  - intros k r NE. rewrite F3, F2, F1; try (intros; apply apart_other; exact NE). unfold s0. cbn [get_keys]. rewrite sget_sset. destruct (String.eqb_spec k "Schedule"); [contradiction|reflexivity].
  - intros k r NSt NSc.
    assert (G0 : isK k = true -> get_keys ("Schedule" :: k :: r)%string s0 = get_keys ("Schedule" :: k :: r)%string (Dict kvs)).
    { intro E. unfold s0. cbn [get_keys]. rewrite sget_sset, String.eqb_refl, GS. unfold kept. rewrite filter_get, E. reflexivity. }
    assert (N1 : numbered "Step" k = false) by (destruct (numbered "Step" k) eqn:E; [apply step_numbered in E; contradiction|reflexivity]).
    destruct (in_dec string_dec k (map fst safety)) as [I|NI].
    + apply in_map_iff in I. destruct I as ([k' n] & EK & I). cbn [fst] in EK. subst k'. change ("Schedule"%string :: k :: r) with (["Schedule"; k]%string ++ r).
      rewrite !get_app, (G3 k n I). cbn [get_keys]. rewrite GS. apply filter_In in I. destruct I as [I _]. rewrite (proj2 (sget_in _ _ _ NDs) I). reflexivity.
    + rewrite F3, F2, F1.
      * destruct (isK k) eqn:E; [apply G0; reflexivity|]. unfold s0. cbn [get_keys]. rewrite sget_sset, String.eqb_refl, GS. unfold kept. rewrite filter_get, E.
        destruct (sget sched k) as [n|] eqn:GK; [|reflexivity]. exfalso. apply NI. apply (sget_in _ _ _ NDs) in GK. change k with (fst (k, n)). apply in_map. unfold safety. apply filter_In.
        split; [exact GK|]. cbn [fst]. unfold isK in E. unfold isS. rewrite N1 in *. cbn in *. destruct (numbered "UserDefineSafety" k); [reflexivity|discriminate].
      * intros x X. apply apart_keys. intro Y. subst x. exact (NSc X).
      * intros j _. apply apart_keys. intro X. apply NSt. rewrite <- X. apply step_key_named.
      * intros x X. apply apart_keys. intro Y. subst x. exact (NI X).
  - intros k r ST NK. rewrite F3, F2, F1.
    + unfold s0. cbn [get_keys]. rewrite sget_sset, String.eqb_refl. unfold kept. rewrite filter_get. unfold isK. apply step_numbered in ST. rewrite ST. reflexivity.
    + intros x X. apply apart_keys. intro Y. subst x. apply step_numbered in ST. destruct (SC k X). congruence.
    + intros j J. apply apart_keys. intro X. apply (NK j J). rewrite <- X. reflexivity.
    + intros x X. apply apart_keys. intro Y. subst x. exact (NS k ST X).
Qed.
