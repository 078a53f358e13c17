(** Lemmas for C116-C118: the file of a procedure. *)
From Verif Require Import Py Proofs_Diagnostic Proofs_Strings Model_Arbin Spec_Arbin Proofs_Arbin Model_Procedure Model_MaccorFile Spec_MaccorFile Proofs_MaccorFile Proofs_MaccorFile_Text Proofs_MaccorFile_Read Proofs_MaccorFile_Main.
Local Open Scope string_scope.

Lemma spaces_space n : all_space (spaces n) = true. Proof. induction n; [reflexivity|exact IHn]. Qed.
Lemma strip_padded l s r : good_text s -> strip (spaces l ++ s ++ spaces r) = s.
Proof.
  intros (_ & F & L). unfold strip. rewrite lstrip_space by apply spaces_space.
  destruct s as [|c s]; [cbn [append]; rewrite <- (app_nil_s (spaces r)), lstrip_space by apply spaces_space; reflexivity|]. cbn [append]. rewrite lstrip_stop.
  - change (String c (s ++ spaces r)) with (String c s ++ spaces r). destruct (last_char (String c s)) as (a & d & E); [discriminate|]. rewrite E, app_assoc_s.
    change (String d "" ++ spaces r) with (String d (spaces r)). apply rstrip_stop; [|apply spaces_space].
    destruct (is_space d) eqn:S; [|reflexivity]. apply is_space_iff in S. destruct (L a d E S).
  - destruct (is_space c) eqn:S; [|reflexivity]. apply is_space_iff in S. destruct (F c s eq_refl S).
Qed.
Lemma list_app a b : list_ascii_of_string (a ++ b) = (list_ascii_of_string a ++ list_ascii_of_string b)%list.
Proof. induction a; cbn; congruence. Qed.
Lemma spaces_chars n c : In c (list_ascii_of_string (spaces n)) -> text_char c.
Proof. induction n; cbn; [tauto|]. intros [<-|H]; [|auto]. unfold text_char. cbn. lia. Qed.
Lemma padded_legal l s r : legal_text s -> legal_text (spaces l ++ s ++ spaces r).
Proof.
  intros L. intros c H. rewrite !list_app in H. apply in_app_or in H. destruct H as [H|H]; [eapply spaces_chars, H|]. apply in_app_or in H. destruct H as [H|H]; [apply L, H|eapply spaces_chars, H].
Qed.
Lemma text_value_good show s : good_text s -> text_value s = as_read show (VText s).
Proof. intro G. pose proof (strip_padded 0 s 0 G) as E. change (strip (s ++ "") = s) in E. rewrite app_nil_s in E. unfold text_value. rewrite E. destruct s; reflexivity. Qed.
Lemma text_value_padded show l s r : good_text s -> text_value (spaces l ++ s ++ spaces r) = as_read show (VText s).
Proof. intro G. unfold text_value. rewrite (strip_padded l s r G). destruct s; reflexivity. Qed.

Fixpoint freeb (c : ascii) (s : string) : bool := match s with EmptyString => true | String d r => negb (Ascii.eqb d c) && freeb c r end.
Lemma free_by c s : freeb c s = true -> free c s.
Proof. induction s as [|d s IH]; [constructor|]. cbn. intro H. apply andb_prop in H. destruct H as [H1 H2]. split; [|auto]. destruct (Ascii.eqb_spec d c); [discriminate H1|assumption]. Qed.

Section File.
  Variable show : val -> string.
  Hypothesis P : prints show.
  Notation norm := (norm show).
  Notation back := (as_read show).
  Definition kept (v f : val) : Prop := norm f = back v /\ shaped_field legal_text f.

  Lemma plain_kept v : (shaped good_text v -> norm v = back v /\ shaped legal_text v) /\ (shaped_field good_text v -> kept v v).
  Proof.
    assert (A : forall v, shaped good_text v -> norm v = back v /\ shaped legal_text v).
    { clear v. induction v using val_nested; intro S; inversion S as [| |? GT|? NE ND IN]; subst; cbn.
      - split; [reflexivity|constructor].
      - split; [exact (text_value_good show _ GT)|constructor; apply GT].
      - split; [|constructor]. destruct (P q) as [G NE]. rewrite (text_value_good show _ G). destruct (show (VNum q)); [congruence|reflexivity].
      - assert (B : forall k w, In (k, w) d -> norm w = back w /\ shaped_field legal_text w).
        { intros k w J. destruct (IN _ _ J) as [_ W]. rewrite Forall_forall in H. inversion W as [? W1|l L2 WL]; subst.
          - destruct (H _ J W1). split; [assumption|constructor; assumption].
          - specialize (H0 _ _ J). rewrite Forall_forall in H0. split.
            + cbn. f_equal. apply map_ext_in. intros x X. apply (H0 x X (WL x X)).
            + constructor; [exact L2|]. intros x X. apply (H0 x X (WL x X)). }
        split.
        + f_equal. apply map_ext_in. intros [k w] J. cbn. f_equal. apply (B _ _ J).
        + constructor; [exact NE|exact ND|]. intros k w J. split; [apply (IN _ _ J)|apply (B _ _ J)]. }
    split; [apply A|]. intro W. inversion W as [? W1|l L2 WL]; subst.
    - destruct (A v W1). split; [assumption|constructor; assumption].
    - split; [cbn; f_equal; apply map_ext_in; intros x X; apply (A x (WL x X))|constructor; [exact L2|intros x X; apply (A x (WL x X))]].
  Qed.
  Lemma padded_kept how v f : shaped good_text v -> fields_padded how v f -> (forall k x y, shaped_field good_text x -> how k x y -> kept x y) ->
    norm f = back v /\ shaped legal_text f.
  Proof.
    intros S (d & e & -> & -> & F) K. inversion S as [| | |? NE ND IN]; subst.
    assert (M : map (fun kv => (fst kv, norm (snd kv))) e = map (fun kv => (fst kv, back (snd kv))) d /\ map fst e = map fst d /\
                forall k y, In (k, y) e -> field_name k /\ shaped_field legal_text y).
    { clear S NE ND. change (Forall2 (rel how) d e) in F. induction F as [|[k x] [k' y] d e [E H] F IH]; [cbn; tauto|]. cbn in E, H. subst k'.
      destruct IH as (A & B & C); [intros; apply IN; right; assumption|]. destruct (IN k x (or_introl eq_refl)) as [NK SX]. destruct (K _ _ _ SX H) as [K1 K2].
      split; [cbn; rewrite A, K1; reflexivity|]. split; [cbn; rewrite B; reflexivity|]. intros k' y' [E|J]; [injection E as <- <-; auto|apply C, J]. }
    destruct M as (A & B & C). split; [cbn; f_equal; exact A|]. constructor; [|rewrite B; exact ND|exact C].
    intros ->. destruct d; [congruence|discriminate B].
  Qed.
  Lemma padded_field how v f : shaped_field good_text v -> fields_padded how v f -> (forall k x y, shaped_field good_text x -> how k x y -> kept x y) -> kept v f.
  Proof.
    intros S F K. assert (S1 : shaped good_text v). { apply field_one; [exact S|]. destruct F as (d & _ & -> & _). intros l; discriminate. }
    destruct (padded_kept how v f S1 F K). split; [assumption|constructor; assumption].
  Qed.
  Lemma good_field s : shaped_field good_text (VText s) -> good_text s.
  Proof. intro S. apply field_one in S; [|intros l; discriminate]. inversion S. assumption. Qed.
  Lemma text_kept l s r : shaped_field good_text (VText s) -> kept (VText s) (VText (spaces l ++ s ++ spaces r)).
  Proof. intro S. apply good_field in S. split; [apply (text_value_padded show), S|]. constructor. constructor. apply padded_legal, S. Qed.
  Lemma centred_kept w s t : shaped_field good_text (VText s) -> centred w s t -> kept (VText s) (VText t).
  Proof. intros S (l & r & -> & _). apply text_kept, S. Qed.
  Lemma text_centred_kept v f : shaped_field good_text v -> text_centred v f -> kept v f.
  Proof. intros S (s & t & -> & -> & C). eapply centred_kept; eassumption. Qed.
  Lemma same_kept v f : shaped_field good_text v -> f = v -> kept v f.
  Proof. intros S ->. apply plain_kept, S. Qed.
  Lemma none_kept : kept VNone VNone.
  Proof. split; [reflexivity|repeat constructor]. Qed.
  Lemma blank_kept n : (1 <= n)%nat -> kept VNone (VText (spaces n)).
  Proof.
    intro N. split.
    - cbn. unfold text_value, strip. rewrite <- (app_nil_s (spaces n)), lstrip_space by apply spaces_space. reflexivity.
    - constructor. constructor. intros c. apply spaces_chars.
  Qed.
  Lemma end_kept k v f : shaped_field good_text v -> end_field k v f -> kept v f.
  Proof.
    intros S H. unfold end_field in H. destruct (String.eqb k "EndType"); [apply text_centred_kept; assumption|].
    destruct (String.eqb k "SpecialType"); [destruct H as [[-> ->]|[_ ->]]; [apply (blank_kept 1); lia|apply same_kept; auto]|].
    destruct (String.eqb k "Oper"); [|apply same_kept; assumption].
    destruct H as [[-> ->]|(s & t & -> & -> & C0 & C1 & C2)]; [apply none_kept|].
    destruct (String.eqb_spec s ""); [rewrite (C0 e); subst s; apply (text_kept 3 "" 0 S)|].
    destruct (le_lt_dec (String.length s) 1) as [L|L]; [apply (centred_kept 3 s t S), C1; destruct s as [|c [|x s]]; [congruence|reflexivity|cbn in L; lia]|]. destruct (C2 L) as (r & -> & _). apply (text_kept 0 s r S).
  Qed.
  Lemma report_kept k v f : shaped_field good_text v -> report_field k v f -> kept v f.
  Proof. intros S H. unfold report_field in H. destruct (String.eqb k "ReportType"); [apply text_centred_kept; assumption|apply same_kept; assumption]. Qed.
  Lemma list_kept (how : string -> val -> val -> Prop) l m : (forall k x y, shaped_field good_text x -> how k x y -> kept x y) -> shaped_field good_text (VList l) ->
    Forall2 (fields_padded how) l m -> kept (VList l) (VList m).
  Proof.
    intros K S F. inversion S as [? S1|? L2 SL]; subst; [inversion S1|].
    assert (A : map norm m = map back l /\ length m = length l /\ forall y, In y m -> shaped legal_text y).
    { clear S L2. induction F as [|x y l m H F IH]; [cbn; tauto|]. destruct IH as (A & B & C); [intros; apply SL; right; assumption|].
      destruct (padded_kept how x y (SL x (or_introl eq_refl)) H K) as [K1 K2]. split; [cbn; rewrite K1, A; reflexivity|]. split; [cbn; rewrite B; reflexivity|].
      intros z [<-|Z]; auto. }
    destruct A as (A & B & C). split; [cbn; rewrite A; reflexivity|]. constructor; [lia|exact C].
  Qed.
  Lemma entry_kept name (how : string -> val -> val -> Prop) k v f : (forall k x y, shaped_field good_text x -> how k x y -> kept x y) -> shaped_field good_text v -> entry_field name how k v f -> kept v f.
  Proof.
    intros K S H. unfold entry_field in H. destruct (String.eqb k name); [|apply same_kept; assumption].
    destruct H as [(l & m & -> & -> & F)|[NL F]]; [eapply list_kept; eassumption|eapply padded_field; eassumption].
  Qed.
  Lemma step_kept k v f : shaped_field good_text v -> step_field k v f -> kept v f.
  Proof.
    intros S H. unfold step_field in H. destruct (String.eqb k "StepType"); [apply text_centred_kept; assumption|].
    destruct (String.eqb k "StepMode"); [destruct H as [[-> ->]|H]; [apply blank_kept; lia|apply text_centred_kept; assumption]|].
    destruct (String.eqb k "Ends").
    { destruct H as [[-> ->]|H]; [apply none_kept|]. eapply padded_field; [exact S|exact H|]. intros. eapply entry_kept; eauto using end_kept. }
    destruct (String.eqb k "Reports"); [|apply same_kept; assumption].
    destruct H as [[-> ->]|H]; [apply none_kept|]. eapply padded_field; [exact S|exact H|]. intros. eapply entry_kept; eauto using report_kept.
  Qed.
  Lemma below_kept key (how : val -> val -> Prop) k v f : (forall x y, shaped_field good_text x -> how x y -> kept x y) -> shaped_field good_text v -> below key how k v f -> kept v f.
  Proof. intros K S H. unfold below in H. destruct (String.eqb k key); [apply K; assumption|apply same_kept; assumption]. Qed.
  Lemma procedure_kept p f : plain p -> procedure_padded p f -> norm f = back p /\ shaped legal_text f.
  Proof.
    intros S H. eapply padded_kept; [exact S|exact H|]. clear S H. intros k x y S H. eapply below_kept; [|exact S|exact H]. clear S H k. intros x1 y1 S H.
    eapply padded_field; [exact S|exact H|]. clear S H. intros k x2 y2 S H. eapply below_kept; [|exact S|exact H]. clear S H k. intros x3 y3 S H.
    eapply padded_field; [exact S|exact H|]. clear S H. intros k x4 y4 S H. eapply below_kept; [|exact S|exact H]. clear S H k. intros x5 y5 S (l & m & -> & -> & F).
    eapply list_kept; [|exact S|exact F]. apply step_kept.
  Qed.

  (** ** The text *)
  Lemma root_name : field_name "MaccorTestProcedure".
  Proof. eexists _, _. split; [reflexivity|]. split; [cbn; tauto|]. intros x X. revert X. apply in_by. vm_compute. reflexivity. Qed.
  Lemma short_names X : In X ["Limits"; "Reports"; "Ends"] -> field_name X.
  Proof. intros [<-|[<-|[<-|[]]]]; (eexists _, _; split; [reflexivity|]; split; [cbn; tauto|]; intros x H; revert H; apply in_by; vm_compute; reflexivity). Qed.
  Definition head : string := declaration ++ String nl "" ++ instruction ++ String nl "".
  Lemma rep_head X s : field_name X -> replace_from (old X) (new X) (head ++ s) 0 = head ++ replace_from (old X) (new X) s 0.
  Proof.
    intro N. destruct (name_ok X N) as (_ & _ & _ & _ & _ & c & r & E & _ & _ & Q).
    assert (H : forall t, free "<" t -> forall u, replace_from (old X) (new X) (("<?" ++ t) ++ u) 0 = ("<?" ++ t) ++ replace_from (old X) (new X) u 0).
    { intros t F u. change (("<?" ++ t) ++ u) with (String "<" (String "?" t ++ u)). rewrite rep_miss.
      - rewrite rep_free by (split; [discriminate|exact F]). reflexivity.
      - apply not_true_iff_false. intro G. apply prefix_iff in G. destruct G as (q & G). unfold old in G. rewrite E in G. cbn in G. injection G as G _. congruence. }
    unfold head. set (t1 := "xml version=""1.0"" encoding=""UTF-8""?>" ++ String nl ""). set (t2 := "maccor-application progid=""Maccor Procedure File""?>" ++ String nl "").
    change (declaration ++ String nl "" ++ instruction ++ String nl "") with (("<?" ++ t1) ++ ("<?" ++ t2)). rewrite !app_assoc_s.
    assert (F1 : free "<" t1) by (apply free_by; reflexivity). assert (F2 : free "<" t2) by (apply free_by; reflexivity).
    change ("<?" ++ t1 ++ "<?" ++ t2 ++ s) with (("<?" ++ t1) ++ (("<?" ++ t2) ++ s)). rewrite (H t1 F1), (H t2 F2). reflexivity.
  Qed.
  Definition shorts : list string := ["Ends"; "Reports"; "Limits"].
  Lemma split_line_free t r : free nl t -> split_line (t ++ String nl r) = Some (t, r).
  Proof.
    induction t as [|c t IH]; [reflexivity|]. intros [F1 F2]. cbn [append split_line]. destruct (Ascii.eqb_spec c nl); [contradiction|]. rewrite (IH F2). reflexivity.
  Qed.
  Lemma to_file_text p f root : format_maccor p = Ok f -> f = VDict [("MaccorTestProcedure", root)] -> shaped legal_text root ->
    to_file show p = Ok (head ++ emitS show shorts 0 "MaccorTestProcedure" root ++ String nl "").
  Proof.
    intros F -> S. unfold to_file. rewrite F. cbn [bind unparse].
    assert (E : (match root with VList [] => Ok (declaration ++ String nl "") | VList [w] => Ok (declaration ++ String nl "" ++ emit show 0 "MaccorTestProcedure" w)
                 | VList _ => Err ValueError | _ => Ok (declaration ++ String nl "" ++ emit show 0 "MaccorTestProcedure" root) end) = Ok (declaration ++ String nl (emit show 0 "MaccorTestProcedure" root))).
    { destruct root; try reflexivity. inversion S. }
    rewrite E. clear E. cbn [bind]. rewrite split_line_free by (apply free_by; reflexivity).
    rewrite emit_emitS. f_equal.
    replace (declaration ++ String nl "" ++ instruction ++ String nl "" ++ emitS show [] 0 "MaccorTestProcedure" root)
      with (head ++ emitS show [] 0 "MaccorTestProcedure" root) by (unfold head; rewrite !app_assoc_s; reflexivity).
    unfold fixup_empty_elements, replace. set (B := emitS show [] 0 "MaccorTestProcedure" root). rewrite <- (app_nil_s B). unfold B. clear B.
    assert (R : forall X sh, In X ["Limits"; "Reports"; "Ends"] -> replace_from (old X) (new X) (head ++ emitS show sh 0 "MaccorTestProcedure" root ++ "") 0 = head ++ emitS show (X :: sh) 0 "MaccorTestProcedure" root ++ "").
    { intros X sh I. pose proof (short_names X I) as NX. rewrite rep_head by exact NX. rewrite (rep_emit show P X root NX S) by exact root_name. reflexivity. }
    change (replace_from "<Limits></Limits>" "<Limits/>") with (replace_from (old "Limits") (new "Limits")).
    change (replace_from "<Reports></Reports>" "<Reports/>") with (replace_from (old "Reports") (new "Reports")).
    change (replace_from "<Ends></Ends>" "<Ends/>") with (replace_from (old "Ends") (new "Ends")).
    rewrite !R by (cbn; auto). rewrite app_nil_s, app_assoc_s. reflexivity.
  Qed.

  (** no carriage returns *)
  Lemma legal_free s : legal_text s -> free cr s.
  Proof. intros L. apply free_in. intro H. specialize (L _ H). unfold text_char in L. cbn in L. lia. Qed.
  Lemma emit_free short v : shaped legal_text v -> forall d k, field_name k -> free cr (emitS show short d k v).
  Proof.
    assert (E : forall d k b, field_name k -> free cr b -> free cr (elementS short d k b)).
    { intros d k b N B. destruct (name_ok k N) as (_ & _ & _ & _ & FC & _). unfold elementS, element. fold (eol d).
      pose proof (indent_free d cr ltac:(discriminate)). pose proof (eol_free d cr ltac:(discriminate)).
      destruct (_ && _)%bool; rewrite !free_app; cbn; repeat split; try discriminate; assumption. }
    induction v using val_nested; intros S dd k N; inversion S as [| |? LT|? NE ND IN]; subst; cbn [emitS]; apply E; try assumption.
    - exact Logic.I.
    - apply escape_char_free; [apply legal_free, LT| | |]; cbn; repeat split; discriminate.
    - apply escape_char_free; [apply legal_free, P| | |]; cbn; repeat split; discriminate.
    - destruct d as [|kv e]; [exact Logic.I|]. rewrite !free_app. split; [cbn; split; [discriminate|exact Logic.I]|]. split; [|apply indent_free; discriminate].
      fold (fieldS show short (Datatypes.S dd)).
      assert (L : forall e', (forall x, In x e' -> In x (kv :: e)) -> free cr (String.concat "" (map (fieldS show short (Datatypes.S dd)) e'))).
      { induction e' as [|[k' w] e' IHe]; intro J; [exact Logic.I|]. cbn [map]. rewrite concat_cons, free_app. split; [|apply IHe; auto using in_cons].
        assert (A : In (k', w) (kv :: e)) by (apply J; left; reflexivity). destruct (IN _ _ A) as [K' W]. rewrite Forall_forall in H. pose proof (H _ A) as HW. cbn [snd] in HW.
        inversion W as [? W1|l L2 WL]; subst.
        - destruct w; try (apply HW; assumption). inversion W1.
        - cbn [fieldS]. specialize (H0 _ _ A). rewrite Forall_forall in H0. clear - H0 WL K'. induction l as [|z l IHl]; [exact Logic.I|]. cbn [map]. rewrite concat_cons, free_app.
          split; [apply H0; [left; reflexivity|apply WL; left; reflexivity|exact K']|]. apply IHl; intros; [apply H0|apply WL]; auto using in_cons. }
      apply L. auto.
  Qed.
  Lemma line_ends_free s : free cr s -> line_ends s = s.
  Proof. induction s as [|c s IH]; [reflexivity|]. intros [F1 F2]. cbn [line_ends]. destruct (Ascii.eqb_spec c cr); [contradiction|]. rewrite (IH F2). reflexivity. Qed.
  Lemma run_instruction t s acc data : free "<" t -> free ">" t -> ws acc -> tag t = Ok [] ->
    exists x, ws x /\ run ("<" ++ t ++ ">" ++ String nl "" ++ s) acc [] None data = run s (String nl "") [] None (data ++ x).
  Proof.
    intros F G W T. destruct (run_tag t (String nl "" ++ s) acc [] None data [] F G W T) as (x & X & E). exists x. split; [exact X|]. rewrite E.
    cbn [app]. assert (NL : free "<" (String nl "")) by (split; [discriminate|exact Logic.I]). exact (run_text (String nl "") s "" [] None (data ++ x) NL).
  Qed.
  Lemma read_text_back root : shaped legal_text root ->
    from_file (head ++ emitS show shorts 0 "MaccorTestProcedure" root ++ String nl "") = Ok (VDict [("MaccorTestProcedure", norm root)]).
  Proof.
    intro S. unfold from_file. rewrite line_ends_free.
    2:{ rewrite !free_app. split; [apply free_by; reflexivity|]. split; [apply emit_free; [exact S|exact root_name]|cbn; split; [discriminate|exact Logic.I]]. }
    match goal with |- bind (lex ?t _ _) _ = _ => change (run t "" [] None "" = Ok (VDict [("MaccorTestProcedure", norm root)])) end.
    set (B := emitS show shorts 0 "MaccorTestProcedure" root ++ String nl "").
    set (t1 := "xml version=""1.0"" encoding=""UTF-8"""). set (t2 := "maccor-application progid=""Maccor Procedure File""").
    assert (HD : head ++ B = "<" ++ (String "?" (t1 ++ "?")) ++ ">" ++ (String nl "" ++ ("<" ++ (String "?" (t2 ++ "?")) ++ ">" ++ (String nl "" ++ B)))) by reflexivity.
    rewrite HD.
    assert (F : forall c, In c ["<"; ">"]%char -> free c (String "?" (t1 ++ "?")) /\ free c (String "?" (t2 ++ "?"))) by (intros c [<-|[<-|[]]]; split; apply free_by; reflexivity).
    assert (T1 : tag (String "?" (t1 ++ "?")) = Ok []) by (rewrite tag_instruction; reflexivity). assert (T2 : tag (String "?" (t2 ++ "?")) = Ok []) by (rewrite tag_instruction; reflexivity).
    clear HD. generalize dependent (String "?" (t2 ++ "?")). generalize dependent (String "?" (t1 ++ "?")). clear t1 t2. intros p1 T1 p2 F T2.
    destruct (run_instruction p1 ("<" ++ p2 ++ ">" ++ String nl "" ++ B) "" "" (proj1 (F _ (or_introl eq_refl))) (proj1 (F _ (or_intror (or_introl eq_refl)))) Logic.I T1) as (x1 & WX1 & E1). rewrite E1.
    destruct (run_instruction p2 B (String nl "") ("" ++ x1) (proj2 (F _ (or_introl eq_refl))) (proj2 (F _ (or_intror (or_introl eq_refl)))) ltac:(cbn; auto) T2) as (x2 & WX2 & E2). rewrite E2. change ("" ++ x1) with x1.
    unfold B.
    destruct (read_emit show P root S shorts 0 "MaccorTestProcedure" root_name (String nl "") (String nl "") [] None (x1 ++ x2)) as (a3 & x3 & WA3 & WX3 & E3); [cbn; auto|apply ws_app; auto|auto|].
    rewrite E3. change (push_data None "MaccorTestProcedure" (norm root)) with (Some [("MaccorTestProcedure", norm root)]).
    rewrite <- (app_nil_s (String nl "")), run_text by (split; [discriminate|exact Logic.I]). unfold run. cbn [lex].
    destruct (chars_ws (a3 ++ String nl "")) as (l & C & H); [apply ws_app; cbn; auto|]. rewrite C. cbn [bind].
    destruct (H [] [] (Some [("MaccorTestProcedure", norm root)]) x3) as (y & _ & E). rewrite app_nil_r in E. rewrite E. reflexivity.
  Qed.

  Lemma root_of p f : complete p -> procedure_padded p f -> exists root, f = VDict [("MaccorTestProcedure", root)].
  Proof.
    intros (r & -> & _) (d & e & D & -> & F). injection D as <-. inversion F as [|[k v] [k' w] ? ? [E _] F']; subst. inversion F'; subst. cbn in E. subst k'. eauto.
  Qed.
  Lemma written p : plain p -> complete p -> exists text f root, format_maccor p = Ok f /\ procedure_padded p f /\ f = VDict [("MaccorTestProcedure", root)] /\ shaped legal_text root /\
    to_file show p = Ok text /\ text = head ++ emitS show shorts 0 "MaccorTestProcedure" root ++ String nl "" /\ from_file text = Ok (back p).
  Proof.
    intros S C. destruct (format_ok p S C) as (f & F & PP). destruct (procedure_kept p f S PP) as [N L]. destruct (root_of p f C PP) as (root & ->).
    assert (R : shaped legal_text root).
    { inversion L as [| | |? _ _ IN]; subst. destruct (IN _ _ (or_introl eq_refl)) as [_ W]. apply field_one in W; [exact W|].
      destruct C as (r & -> & (d & -> & _)). destruct PP as (d1 & e1 & D & E & G). injection D as <-. injection E as <-. inversion G as [|? ? ? ? [_ H] _]; subst. cbn in H. destruct H as (? & ? & _ & -> & _). intros l; discriminate. }
    eexists _, (VDict [("MaccorTestProcedure", root)]), root. split; [exact F|]. split; [exact PP|]. split; [reflexivity|]. split; [exact R|].
    split; [apply (to_file_text p _ root F eq_refl R)|]. split; [reflexivity|]. rewrite read_text_back by exact R. f_equal. exact N.
  Qed.
End File.
