(** Lemmas for C142. *)
From Verif Require Import Py Proofs_Diagnostic Proofs_Strings Model_Arbin Spec_Arbin Proofs_Arbin Model_Procedure Model_MaccorFile Spec_MaccorFile Proofs_MaccorFile
  Proofs_MaccorFile_Text Proofs_MaccorFile_Read Proofs_MaccorFile_File Proofs_MaccorFile_Lines Proofs_MaccorFile_Check Model_Text Proofs_Text Model_B2M Model_B2MFile Spec_B2MFile.
Local Open Scope string_scope.

(** ** Line ends *)
Fixpoint ce (s : string) : string :=
  match s with EmptyString => EmptyString | String c r => if Ascii.eqb c nl then String cr (String nl (ce r)) else String c (ce r) end.
Lemma ce_app a b : ce (a ++ b) = ce a ++ ce b.
Proof. induction a as [|c a IH]; [reflexivity|]. cbn [append ce]. rewrite IH. destruct (Ascii.eqb c nl); reflexivity. Qed.
Lemma ce_free s : free nl s -> ce s = s.
Proof. induction s as [|c s IH]; [reflexivity|]. intros [A B]. cbn [ce]. destruct (Ascii.eqb_spec c nl); [contradiction|]. rewrite IH by exact B. reflexivity. Qed.
Lemma ce_prefix a : free nl a -> free cr a -> forall s q, ce s = a ++ q -> exists t, s = a ++ t.
Proof.
  induction a as [|x a IH]; intros F G s q E; [eexists; reflexivity|]. destruct F as [F1 F2], G as [G1 G2]. destruct s as [|c s]; [discriminate E|]. cbn [ce append] in E.
  destruct (Ascii.eqb_spec c nl).
  - injection E as E1 E2. congruence.
  - injection E as E1 E2. subst. destruct (IH F2 G2 _ _ E2) as (t & ->). exists t. reflexivity.
Qed.
Lemma line_ends_ce s t : free cr s -> line_ends (ce s ++ t) = s ++ line_ends t.
Proof.
  induction s as [|c s IH]; [reflexivity|]. intros [A B]. cbn [ce]. destruct (Ascii.eqb_spec c nl) as [->|N].
  - cbn [append line_ends]. change (Ascii.eqb cr cr) with true. change (Ascii.eqb nl nl) with true. change (Ascii.eqb nl cr) with false. cbv iota. rewrite IH by exact B. reflexivity.
  - cbn [append line_ends]. destruct (Ascii.eqb_spec c cr); [contradiction|]. rewrite IH by exact B. reflexivity.
Qed.
Lemma name_nl k : field_name k -> free nl k.
Proof.
  intros (c & r & -> & C & R).
  assert (A : forall l, forallb (fun x => negb (Ascii.eqb x nl)) l = true -> forall x, In x l -> x <> nl).
  { intros l B x I ->. rewrite forallb_forall in B. specialize (B _ I). cbn in B. congruence. }
  pose proof (A letters ltac:(vm_compute; reflexivity)) as NL. pose proof (A name_letters ltac:(vm_compute; reflexivity)) as NN.
  split; [exact (NL _ C)|]. apply free_in. intro J. exact (NN _ (R _ J) eq_refl).
Qed.
Section Ce.
  Variable X : string.
  Hypothesis N : field_name X.
  Lemma old_free c : free c X -> c <> "<"%char -> c <> ">"%char -> c <> "/"%char -> free c (old X).
  Proof. intros F A B C. unfold old. rewrite !free_app. cbn. repeat split; try exact F; congruence. Qed.
  Lemma new_free c : free c X -> c <> "<"%char -> c <> ">"%char -> c <> "/"%char -> free c (new X).
  Proof. intros F A B C. unfold new. rewrite !free_app. cbn. repeat split; try exact F; congruence. Qed.
  Lemma ce_rep : forall n s, (String.length s <= n)%nat -> ce (replace_from (old X) (new X) s 0) = replace_from (old X) (new X) (ce s) 0.
  Proof.
    assert (FN := name_nl X N). destruct (name_ok X N) as (_ & _ & _ & _ & FC & _).
    assert (ON : free nl (old X)) by (apply old_free; [exact FN|discriminate..]). assert (OC : free cr (old X)) by (apply old_free; [exact FC|discriminate..]).
    assert (NN : free nl (new X)) by (apply new_free; [exact FN|discriminate..]).
    induction n as [|n IH]; intros s L; [destruct s; [reflexivity|cbn in L; lia]|].
    destruct (prefix (old X) s) eqn:PR.
    - apply prefix_iff in PR. destruct PR as (t & ->). rewrite rep_hit, !ce_app, (ce_free _ NN), (ce_free _ ON), rep_hit. f_equal. apply IH.
      rewrite app_length_s in L. assert (1 <= String.length (old X))%nat by (unfold old; cbn; lia). lia.
    - destruct s as [|c s]; [reflexivity|]. cbn [String.length] in L.
      assert (IS : ce (replace_from (old X) (new X) s 0) = replace_from (old X) (new X) (ce s) 0) by (apply IH; lia).
      destruct (Ascii.eqb_spec c "<") as [->|NC].
      + rewrite rep_miss by exact PR. change (ce (String "<" (replace_from (old X) (new X) s 0))) with (String "<" (ce (replace_from (old X) (new X) s 0))).
        change (ce (String "<" s)) with (String "<" (ce s)). rewrite rep_miss; [rewrite IS; reflexivity|].
        apply not_true_iff_false. intro Q. apply prefix_iff in Q. destruct Q as (q & Q).
        change (String "<" (ce s)) with (ce (String "<" s)) in Q. destruct (ce_prefix _ ON OC _ _ Q) as (t & T). apply not_true_iff_false in PR. apply PR, prefix_iff. exists t. exact T.
      + pose proof (rep_free X (String c "") s (conj NC Logic.I)) as E. cbn [append] in E. rewrite E. cbn [ce]. destruct (Ascii.eqb_spec c nl) as [->|NN'].
        * pose proof (rep_free X (String cr (String nl "")) (ce s)) as E2. cbn [append] in E2. rewrite E2 by (repeat split; discriminate). rewrite IS. reflexivity.
        * pose proof (rep_free X (String c "") (ce s) (conj NC Logic.I)) as E2. cbn [append] in E2. rewrite E2, IS. reflexivity.
  Qed.
End Ce.

(** ** The text written *)
Definition line_text (s : string) : Prop := legal_text s /\ free nl s.
Lemma printable_line s : printable s -> line_text s.
Proof.
  intro H. split; [intros c I; right; right; exact (H c I)|]. apply free_in. intro I. specialize (H _ I). cbn in H. lia.
Qed.
Lemma concat_ce {A} (f g : A -> string) l : (forall x, In x l -> f x = ce (g x)) -> String.concat "" (map f l) = ce (String.concat "" (map g l)).
Proof.
  induction l as [|x l IH]; intro H; [reflexivity|]. cbn [map]. rewrite !concat_cons, ce_app, H by (left; reflexivity). f_equal. apply IH. intros y Y. apply H. right. exact Y.
Qed.
Section Text.
  Variable show : val -> string.
  Hypothesis P : prints_line show.
  Lemma P1 : prints show. Proof. apply P. Qed.
  Lemma show_line q : line_text (show (VNum q)). Proof. apply printable_line, P. Qed.
  Lemma escape_line s : free nl s -> free nl (escape s).
  Proof. intro F. apply escape_char_free; [exact F| | |]; cbn; repeat split; discriminate. Qed.
  Lemma element_ce d k a b : field_name k -> a = ce b -> element_crlf d k a = ce (element d k b).
  Proof.
    intros N ->. unfold element_crlf, element. assert (F := name_nl k N). rewrite !ce_app, (ce_free k F), (ce_free (indent d)) by (apply indent_free; discriminate).
    destruct (d =? 0)%nat; reflexivity.
  Qed.
  Lemma emit_ce v : (shaped line_text v -> forall d k, field_name k -> emit_crlf show d k v = ce (emit show d k v)).
  Proof.
    induction v using val_nested; intros S dd k N; inversion S as [| |? LT|? NE ND IN]; subst; cbn [emit_crlf emit]; apply element_ce; try assumption.
    - reflexivity.
    - rewrite ce_free by (apply escape_line, LT). reflexivity.
    - rewrite ce_free by (apply escape_line, show_line). reflexivity.
    - destruct d as [|kv e]; [reflexivity|]. rewrite !ce_app, (ce_free (indent dd)) by (apply indent_free; discriminate). f_equal. f_equal.
      apply concat_ce. intros [k' w] J. destruct (IN _ _ J) as [K' W]. rewrite Forall_forall in H. pose proof (H _ J) as HW. cbn [snd] in HW.
      inversion W as [? W1|l L2 WL]; subst.
      + destruct w; try (apply HW; assumption). inversion W1.
      + apply concat_ce. intros x Y. specialize (H0 _ _ J). rewrite Forall_forall in H0. apply H0; auto.
  Qed.

  Definition dirty : string := "<?xml version=""1.0"" encoding=""utf-8""?>".
  Lemma rep_dirty X s : field_name X -> replace_from (old X) (new X) (dirty ++ String nl "" ++ s) 0 = dirty ++ String nl "" ++ replace_from (old X) (new X) s 0.
  Proof.
    intro N. destruct (name_ok X N) as (_ & _ & _ & _ & _ & c & r & E & _ & _ & Q).
    set (t := "xml version=""1.0"" encoding=""utf-8""?>" ++ String nl ""). assert (F : free "<" t) by (apply free_by; reflexivity).
    change (replace_from (old X) (new X) (String "<" (String "?" t ++ s)) 0 = String "<" (String "?" t ++ replace_from (old X) (new X) s 0)). rewrite rep_miss.
    - rewrite rep_free by (split; [discriminate|exact F]). reflexivity.
    - apply not_true_iff_false. intro G. apply prefix_iff in G. destruct G as (q & G). unfold old in G. rewrite E in G. cbn in G. injection G as G _. congruence.
  Qed.
  Lemma shaped_line v : shaped line_text v -> shaped legal_text v.
  Proof. apply (shaped_impl line_text legal_text v). intros s H. apply H. Qed.
  Lemma fixed root : shaped line_text root ->
    fixup_empty_elements (unparsed show root) = dirty ++ String nl "" ++ ce (emitS show shorts 0 "MaccorTestProcedure" root).
  Proof.
    intro S. unfold unparsed. fold dirty. rewrite emit_ce by (assumption || exact root_name). rewrite emit_emitS.
    assert (R : forall X sh, In X ["Limits"; "Reports"; "Ends"] -> replace_from (old X) (new X) (dirty ++ String nl "" ++ ce (emitS show sh 0 "MaccorTestProcedure" root)) 0
                  = dirty ++ String nl "" ++ ce (emitS show (X :: sh) 0 "MaccorTestProcedure" root)).
    { intros X sh I. pose proof (short_names X I) as NX. rewrite rep_dirty by exact NX. rewrite <- (ce_rep X NX _ _ (le_n _)).
      pose proof (rep_emit show P1 X root NX (shaped_line root S) sh 0 "MaccorTestProcedure" "" root_name) as E. cbn [replace_from] in E. rewrite !app_nil_s in E. rewrite E. reflexivity. }
    unfold fixup_empty_elements, replace.
    change (replace_from "<Limits></Limits>" "<Limits/>") with (replace_from (old "Limits") (new "Limits")).
    change (replace_from "<Reports></Reports>" "<Reports/>") with (replace_from (old "Reports") (new "Reports")).
    change (replace_from "<Ends></Ends>" "<Ends/>") with (replace_from (old "Ends") (new "Ends")).
    rewrite !R by (cbn; auto). reflexivity.
  Qed.
  Definition text_of (root : val) : string :=
    declaration ++ crlf ++ instruction ++ String nl "" ++ ce (emitS show shorts 0 "MaccorTestProcedure" root) ++ crlf.
  Lemma read_of root : shaped line_text root -> from_file (text_of root) = Ok (VDict [("MaccorTestProcedure", norm show root)]).
  Proof.
    intro S. rewrite <- (read_text_back show P1 root (shaped_line root S)). unfold from_file.
    match goal with |- context[line_ends (text_of root)] => enough (LE : line_ends (text_of root) = line_ends (head ++ emitS show shorts 0 "MaccorTestProcedure" root ++ String nl "")) by (rewrite LE; reflexivity) end.
    assert (FE : free cr (emitS show shorts 0 "MaccorTestProcedure" root)) by (apply emit_free; [exact P1|apply shaped_line, S|exact root_name]).
    revert FE. unfold text_of. generalize (emitS show shorts 0 "MaccorTestProcedure" root). intros E FE.
    assert (FR : free cr (head ++ E ++ String nl "")).
    { apply free_app. split; [apply free_by; reflexivity|]. apply free_app. split; [exact FE|cbn; split; [discriminate|exact Logic.I]]. }
    rewrite (line_ends_free _ FR).
    assert (A : declaration ++ crlf ++ instruction ++ String nl "" ++ ce E ++ crlf = ce (declaration ++ String nl "" ++ instruction) ++ String nl "" ++ ce E ++ crlf) by reflexivity.
    rewrite A, line_ends_ce by (apply free_by; reflexivity).
    change (line_ends (String nl "" ++ ce E ++ crlf)) with (String nl (line_ends (ce E ++ crlf))).
    rewrite line_ends_ce by exact FE. change (line_ends crlf) with (String nl ""). change (String nl (E ++ String nl "")) with (String nl "" ++ E ++ String nl ""). unfold head. rewrite !app_assoc_s. reflexivity.
  Qed.
End Text.

(** ** The value written *)
Definition one_entries (name : string) (l : list val) : val := match l with [] => VText "" | [x] => VDict [(name, x)] | _ => VDict [(name, VList l)] end.
Definition one_step (s : bstep) : val :=
  VDict [("StepType", VText (bs_type s)); ("StepMode", VText (bs_mode s)); ("StepValue", VText (bs_value s)); ("Limits", VText "");
         ("Ends", one_entries "EndEntry" (map end_val (bs_ends s))); ("Reports", one_entries "ReportEntry" (map report_val (bs_reports s)));
         ("Range", VText ""); ("Option1", VText ""); ("Option2", VText ""); ("Option3", VText ""); ("StepNote", VText "")].
Definition one_body (header : val) (steps : list bstep) : val :=
  VDict [("header", header); ("ProcSteps", one_entries "TestStep" (map one_step steps))].
Section Value.
  Variable show : val -> string.
  Definition dict (v : val) : Prop := exists d, v = VDict d.
  Lemma one_emit name l : (forall v, In v l -> dict v) -> forall d k, emit_crlf show d k (entries_val name l) = emit_crlf show d k (one_entries name l).
  Proof.
    intros H d k. destruct l as [|x [|y l]]; try reflexivity. destruct (H x (or_introl eq_refl)) as (e & ->). reflexivity.
  Qed.
  Lemma field_emit (l l' : list (string * val)) : Forall2 (fun a b => fst a = fst b /\ not_list (snd a) /\ not_list (snd b) /\ forall d k, emit_crlf show d k (snd a) = emit_crlf show d k (snd b)) l l' ->
    forall d k, emit_crlf show d k (VDict l) = emit_crlf show d k (VDict l').
  Proof.
    intros F d k. cbn [emit_crlf]. destruct F as [|a b l l' A F]; [reflexivity|]. f_equal. f_equal. f_equal. f_equal.
    assert (G := Forall2_cons a b A F). clear A F. induction G as [|[k1 v1] [k2 v2] m m' (E & N1 & N2 & H) G IH]; [reflexivity|]. cbn [fst snd] in *. subst k2. cbn [map]. rewrite IH. f_equal.
    destruct v1; try (elim (N1 l0); reflexivity); destruct v2; try (elim (N2 l0); reflexivity); apply H.
  Qed.
  Lemma entries_not_list name l : not_list (entries_val name l) /\ not_list (one_entries name l).
  Proof. split; intros m; destruct l as [|? [|? ?]]; discriminate. Qed.
  Lemma same_field k v : not_list v -> (fun a b : string * val => fst a = fst b /\ not_list (snd a) /\ not_list (snd b) /\ forall d k, emit_crlf show d k (snd a) = emit_crlf show d k (snd b)) (k, v) (k, v).
  Proof. cbn. auto. Qed.
  Lemma step_emit s d k : emit_crlf show d k (step_val s) = emit_crlf show d k (one_step s).
  Proof.
    apply field_emit. repeat (apply Forall2_cons; [first [apply same_field; intros m; discriminate
      | cbn [fst snd]; split; [reflexivity|]; split; [apply entries_not_list|]; split; [apply entries_not_list|]; apply one_emit;
        intros v I; apply in_map_iff in I; destruct I as (x & <- & _); eexists; reflexivity]|]). constructor.
  Qed.
  Lemma body_emit h steps d k : not_list h -> steps <> [] -> emit_crlf show d k (body_val h steps) = emit_crlf show d k (one_body h steps).
  Proof.
    intros NH NE. apply field_emit. apply Forall2_cons; [apply same_field, NH|]. apply Forall2_cons; [|constructor]. cbn [fst snd]. split; [reflexivity|]. split; [intro; discriminate|]. split; [apply entries_not_list|].
    intros d' k'. transitivity (emit_crlf show d' k' (VDict [("TestStep", VList (map one_step steps))])).
    - cbn [emit_crlf map]. rewrite !map_map. do 6 f_equal. apply map_ext. intro s. apply step_emit.
    - destruct steps as [|s r]; [congruence|]. exact (one_emit "TestStep" (map one_step (s :: r)) (fun v I => let '(ex_intro _ x (conj E _)) := proj1 (in_map_iff _ _ _) I in ex_intro _ _ (eq_sym E)) d' k').
  Qed.
End Value.

(** ** What is read *)
Definition printableb (s : string) : bool := forallb (fun c => (32 <=? nat_of_ascii c)%nat && (nat_of_ascii c <=? 126)%nat) (list_ascii_of_string s).
Lemma printable_by s : printableb s = true -> printable s.
Proof. intros H c I. unfold printableb in H. rewrite forallb_forall in H. specialize (H c I). apply andb_prop in H. rewrite !Nat.leb_le in H. exact H. Qed.
Lemma printable_cons c s : printable (String c s) -> (32 <= nat_of_ascii c <= 126)%nat /\ printable s.
Proof. intro H. split; [apply H; left; reflexivity|intros x I; apply H; right; exact I]. Qed.
Lemma space_blank c : (32 <= nat_of_ascii c <= 126)%nat -> is_space c = true -> c = " "%char.
Proof.
  intros B S. unfold is_space in S. rewrite <- (ascii_nat_embedding c). set (n := nat_of_ascii c) in *.
  assert (n = 32%nat) as ->; [|reflexivity]. repeat (apply orb_prop in S; destruct S as [S|S]); try (apply andb_prop in S; destruct S as [S1 S2]); repeat rewrite ?Nat.leb_le, ?Nat.eqb_eq in *; lia.
Qed.
Lemma lstrip_spaces s : printable s -> exists n, s = spaces n ++ lstrip s.
Proof.
  induction s as [|c s IH]; intro H; [exists 0%nat; reflexivity|]. destruct (printable_cons _ _ H) as [C R]. cbn [lstrip]. destruct (is_space c) eqn:S.
  - destruct (IH R) as (n & E). exists (Datatypes.S n). rewrite (space_blank c C S). cbn [spaces append]. f_equal. exact E.
  - exists 0%nat. reflexivity.
Qed.
Lemma rstrip_spaces s : printable s -> exists n, s = rstrip s ++ spaces n.
Proof.
  induction s as [|c s IH]; intro H; [exists 0%nat; reflexivity|]. destruct (printable_cons _ _ H) as [C R]. destruct (IH R) as (n & E). cbn [rstrip]. destruct (rstrip s) as [|x t].
  - destruct (is_space c) eqn:S; [exists (Datatypes.S n); rewrite (space_blank c C S); cbn [spaces append] in *; f_equal; exact E|exists n; cbn [append] in *; f_equal; exact E].
  - exists n. cbn [append]. f_equal. exact E.
Qed.
Lemma lstrip_first s c r : lstrip s = String c r -> is_space c = false.
Proof. induction s as [|d s IH]; [discriminate|]. cbn [lstrip]. destruct (is_space d) eqn:S; [exact IH|]. intro E. injection E as -> _. exact S. Qed.
Lemma rstrip_first s c r : rstrip s = String c r -> exists r', s = String c r'.
Proof. destruct s as [|d s]; [discriminate|]. cbn [rstrip]. destruct (rstrip s); [destruct (is_space d); [discriminate|]|]; intro E; injection E as -> _; eexists; reflexivity. Qed.
Lemma rstrip_last s : forall a c, rstrip s = a ++ String c "" -> is_space c = false.
Proof.
  induction s as [|d s IH]; intros a c E; [destruct a; discriminate E|]. cbn [rstrip] in E. destruct (rstrip s) as [|x t].
  - destruct (is_space d) eqn:S; [destruct a; discriminate E|]. destruct a as [|y a]; [injection E as <-; exact S|]. injection E as _ E. destruct a; discriminate E.
  - destruct a as [|y a]; [discriminate E|]. injection E as _ E. exact (IH _ _ E).
Qed.
Lemma text_told s : printable s -> told s (text_value s).
Proof.
  intro H. destruct (lstrip_spaces s H) as (l & E1).
  assert (HL : printable (lstrip s)). { intros c I. apply H. rewrite E1, list_app. apply in_or_app. right. exact I. }
  destruct (rstrip_spaces _ HL) as (r & E2). unfold text_value. change (rstrip (lstrip s)) with (strip s) in E2. destruct (strip s) as [|c t] eqn:ST.
  - left. split; [reflexivity|]. exists (l + r)%nat. rewrite E1, E2. cbn [append]. clear. induction l; [reflexivity|]. cbn [spaces append Nat.add]. f_equal. exact IHl.
  - right. exists l, (String c t), r. split; [rewrite <- E2; exact E1|]. split; [discriminate|]. split; [|split; [|reflexivity]].
    + intros x y E B. injection E as <- <-. apply is_space_iff in B. destruct (rstrip_first _ _ _ ST) as (r' & L). rewrite (lstrip_first _ _ _ L) in B. congruence.
    + intros a x E B. apply is_space_iff in B. unfold strip in ST. rewrite E in ST. rewrite (rstrip_last _ _ _ ST) in B. congruence.
Qed.
Section Read.
  Variable show : val -> string.
  Notation norm := (norm show).
  Lemma one_several {A} name (R : A -> val -> Prop) (f : A -> val) l : l <> [] -> (forall x, In x l -> R x (f x)) -> several name R l (one_entries name (map f l)).
  Proof.
    intros NE H. destruct l as [|x [|y l]]; [congruence|left; exists x, (f x); split; [reflexivity|]; split; [apply H; left; reflexivity|reflexivity]|].
    right. exists (map f (x :: y :: l)). split; [cbn; lia|]. split; [|reflexivity]. clear NE. induction (x :: y :: l); constructor; [apply H; left; reflexivity|apply IHl0; intros; apply H; right; assumption].
  Qed.
  Lemma norm_several {A} name (R : A -> val -> Prop) (f : A -> val) l : l <> [] -> (forall x, In x l -> R x (norm (f x))) -> several name R l (norm (one_entries name (map f l))).
  Proof.
    intros NE H. replace (norm (one_entries name (map f l))) with (one_entries name (map (fun x => norm (f x)) l)); [apply one_several; assumption|].
    destruct l as [|x [|y l]]; [congruence|reflexivity|]. cbn. rewrite map_map. reflexivity.
  Qed.
  Ltac texts := repeat (constructor; [cbn [fst snd]; split; [reflexivity|first [reflexivity | apply text_told; first [assumption | apply printable_by; reflexivity | eauto]]]|]); constructor.
  Lemma end_is e : printable_end e -> end_as told e (norm (end_val e)).
  Proof.
    intros (A & B & C & D & E). unfold end_as, end_val. eexists. split; [reflexivity|]. unfold fields. destruct (be_stepvalue e) as [t|]; [specialize (E t eq_refl)|]; cbn [app map]; texts.
  Qed.
  Lemma end_is0 e : end_as verbatim e (end_val e).
  Proof. unfold end_as, end_val. eexists. split; [reflexivity|]. unfold fields. destruct (be_stepvalue e) as [t|]; cbn [app map]; texts. Qed.
  Lemma report_is r : printable_report r -> report_as told r (norm (report_val r)).
  Proof. intros (A & B). eexists. split; [reflexivity|]. unfold fields. cbn [map]. texts. Qed.
  Lemma report_is0 r : report_as verbatim r (report_val r).
  Proof. eexists. split; [reflexivity|]. unfold fields. texts. Qed.
  Lemma step_is s : printable_step s -> step_as told s (norm (one_step s)).
  Proof.
    intros (A & B & C & D & E). rewrite Forall_forall in D, E.
    exists [("StepType", text_value (bs_type s)); ("StepMode", text_value (bs_mode s)); ("StepValue", text_value (bs_value s)); ("Limits", text_value "")],
      (norm (one_entries "EndEntry" (map end_val (bs_ends s)))), (norm (one_entries "ReportEntry" (map report_val (bs_reports s)))),
      [("Range", text_value ""); ("Option1", text_value ""); ("Option2", text_value ""); ("Option3", text_value ""); ("StepNote", text_value "")].
    split; [reflexivity|]. split; [unfold fields; texts|]. split; [|split; [|unfold fields; texts]].
    - destruct (bs_ends s) as [|x l] eqn:L; [left; split; [reflexivity|apply text_told, printable_by; reflexivity]|]. right. apply norm_several; [discriminate|]. intros; apply end_is; auto.
    - destruct (bs_reports s) as [|x l] eqn:L; [left; split; [reflexivity|apply text_told, printable_by; reflexivity]|]. right. apply norm_several; [discriminate|]. intros; apply report_is; auto.
  Qed.
  Lemma step_is0 s : step_as verbatim s (one_step s).
  Proof.
    exists [("StepType", VText (bs_type s)); ("StepMode", VText (bs_mode s)); ("StepValue", VText (bs_value s)); ("Limits", VText "")],
      (one_entries "EndEntry" (map end_val (bs_ends s))), (one_entries "ReportEntry" (map report_val (bs_reports s))),
      [("Range", VText ""); ("Option1", VText ""); ("Option2", VText ""); ("Option3", VText ""); ("StepNote", VText "")].
    split; [reflexivity|]. split; [unfold fields; texts|]. split; [|split; [|unfold fields; texts]].
    - destruct (bs_ends s) as [|x l] eqn:L; [left; split; reflexivity|]. right. apply one_several; [discriminate|]. intros; apply end_is0.
    - destruct (bs_reports s) as [|x l] eqn:L; [left; split; reflexivity|]. right. apply one_several; [discriminate|]. intros; apply report_is0.
  Qed.
  Lemma body_is h steps : steps <> [] -> Forall printable_step steps -> procedure_as told (norm h) steps (norm (one_body h steps)).
  Proof.
    intros NE F. rewrite Forall_forall in F. eexists. split; [|reflexivity]. apply norm_several; [exact NE|]. intros; apply step_is; auto.
  Qed.
  Lemma body_is0 h steps : steps <> [] -> procedure_as verbatim h steps (one_body h steps).
  Proof. intros NE. eexists. split; [|reflexivity]. apply one_several; [exact NE|]. intros; apply step_is0. Qed.

  (** shapes *)
  Notation T := line_text.
  Lemma empty_line : T "". Proof. split; [intros c []|exact Logic.I]. Qed.
  Lemma fields_shaped d : d <> [] -> NoDup (map fst d) -> forallb (fun kv => Proofs_MaccorFile_Check.field_nameb (fst kv)) d = true -> Forall (fun kv : string * val => shaped_field T (snd kv)) d -> shaped T (VDict d).
  Proof.
    intros NE ND FN F. constructor; [exact NE|exact ND|]. intros k v I. rewrite forallb_forall in FN. rewrite Forall_forall in F. split; [apply Proofs_MaccorFile_Check.field_nameb_ok; exact (FN _ I)|exact (F _ I)].
  Qed.
  Lemma text_shaped s : printable s -> shaped_field T (VText s).
  Proof. intro H. constructor. constructor. apply printable_line, H. Qed.
  Lemma empty_shaped : shaped_field T (VText ""). Proof. constructor. constructor. exact empty_line. Qed.
  Ltac names := repeat (constructor; [cbn; intuition discriminate|]); constructor.
  Lemma end_shaped e : printable_end e -> shaped T (end_val e).
  Proof.
    intros (A & B & C & D & E). unfold end_val. destruct (be_stepvalue e) as [t|]; (apply fields_shaped; [discriminate|names|reflexivity|]).
    - repeat (constructor; [cbn [snd]; apply text_shaped; try assumption; first [apply E; reflexivity|intros c [<-|[]]; cbn; lia]|]). constructor.
    - repeat (constructor; [cbn [snd]; apply text_shaped; try assumption; intros c [<-|[]]; cbn; lia|]). constructor.
  Qed.
  Lemma report_shaped r : printable_report r -> shaped T (report_val r).
  Proof. intros (A & B). apply fields_shaped; [discriminate|names|reflexivity|]. repeat (constructor; [cbn [snd]; apply text_shaped; assumption|]). constructor. Qed.
  Lemma entries_shaped {A} name (f : A -> val) l : Proofs_MaccorFile_Check.field_nameb name = true -> (forall x, In x l -> shaped T (f x)) -> shaped_field T (one_entries name (map f l)).
  Proof.
    intros N H. destruct l as [|x [|y l]]; [exact empty_shaped| |]; apply shaped_one, fields_shaped; try discriminate; try (constructor; [intros []|constructor]); try (cbn [forallb fst]; rewrite N; reflexivity).
    - constructor; [|constructor]. cbn [snd]. apply shaped_one, H. left. reflexivity.
    - constructor; [|constructor]. cbn [snd]. apply shaped_many; [cbn; lia|]. intros v I. change (In v (map f (x :: y :: l))) in I. apply in_map_iff in I. destruct I as (z & <- & I). apply H, I.
  Qed.
  Lemma step_shaped s : printable_step s -> shaped T (one_step s).
  Proof.
    intros (A & B & C & D & E). rewrite Forall_forall in D, E. apply fields_shaped; [discriminate|names|reflexivity|].
    repeat (constructor; [cbn [snd]; first [exact empty_shaped | apply text_shaped; assumption
      | apply entries_shaped; [reflexivity|intros; first [apply end_shaped; auto; fail|apply report_shaped; auto; fail]]]|]). constructor.
  Qed.
  Lemma body_shaped h steps : line_header h -> Forall printable_step steps -> shaped T (one_body h steps).
  Proof.
    intros H F. rewrite Forall_forall in F. apply fields_shaped; [discriminate|names|reflexivity|]. constructor; [|constructor; [|constructor]]; cbn [snd].
    - apply shaped_one. apply (shaped_impl (fun s => good_text s /\ printable s) T h); [intros s S; apply printable_line, S|exact H].
    - apply entries_shaped; [reflexivity|]. intros; apply step_shaped; auto.
  Qed.
  Lemma header_back h : prints show -> line_header h -> norm h = as_read show h.
  Proof. intros P H. apply (proj1 (plain_kept show P h)). apply (proj1 (shaped_impl (fun s => good_text s /\ printable s) good_text h (fun s S => proj1 S))). exact H. Qed.
End Read.
Section File.
  Variable show : val -> string.
  Hypothesis P : prints_line show.
  Lemma after_dirty s : after_line (dirty ++ String nl "" ++ s) = String nl "" ++ s.
  Proof. reflexivity. Qed.
  Lemma xml_text h steps : line_header h -> steps <> [] -> Forall printable_step steps -> steps_to_xml show h steps = text_of show (one_body h steps).
  Proof.
    intros H NE F. unfold steps_to_xml. assert (E : unparsed show (body_val h steps) = unparsed show (one_body h steps)).
    { unfold unparsed. rewrite body_emit; [reflexivity| |exact NE]. exact (shaped_not_list _ _ H). }
    rewrite E, (fixed show P) by (apply body_shaped; assumption). rewrite after_dirty. unfold text_of. generalize (ce (emitS show shorts 0 "MaccorTestProcedure" (one_body h steps))). intro t. reflexivity.
  Qed.
End File.

(** ** Lines *)
Scheme lines_mut := Minimality for lines Sort Prop with fields_lines_mut := Minimality for fields_lines Sort Prop with each_lines_mut := Minimality for each_lines Sort Prop.
Lemma margin_free d : free nl (margin d). Proof. unfold margin. change spaces with blank. apply blank_free. discriminate. Qed.
Lemma marked_escape s : marked_text s = escape s.
Proof. unfold marked_text. induction s as [|c s IH]; [reflexivity|]. cbn [list_ascii_of_string map escape]. rewrite concat_cons, IH. unfold marked. destruct (Ascii.eqb c "&"), (Ascii.eqb c "<"), (Ascii.eqb c ">"); reflexivity. Qed.
Section Lines.
  Variable show : val -> string.
  Hypothesis P : prints_line show.
  Lemma tag_line d k (a b c : string) : field_name k -> free nl a -> free nl b -> free nl c -> free nl (margin d ++ a ++ k ++ b ++ k ++ c) /\ free nl (margin d ++ a ++ k ++ b).
  Proof. intros N A B C. pose proof (name_nl k N). pose proof (margin_free d). rewrite !free_app. tauto. Qed.
  Lemma lines_free d k v ls : lines show d k v ls -> field_name k -> shaped_field line_text v -> Forall (free nl) ls.
  Proof.
    apply (lines_mut show (fun d k v ls => field_name k -> shaped_field line_text v -> Forall (free nl) ls)
             (fun d e ls => (forall k v, In (k, v) e -> field_name k /\ shaped_field line_text v) -> Forall (free nl) ls)
             (fun d k l ls => field_name k -> (forall v, In v l -> shaped line_text v) -> Forall (free nl) ls)); clear d k v ls.
    - intros d k v _ _ N _. constructor; [|constructor]. apply (tag_line d k "<" "/>" ""); auto; cbn; repeat split; discriminate.
    - intros d k v _ _ N _. constructor; [|constructor]. apply (tag_line d k "<" "></" ">"); auto; cbn; repeat split; discriminate.
    - intros d k s _ N S. inversion S as [? S1|]; subst. inversion S1 as [| |? LT|]; subst. constructor; [|constructor].
      rewrite marked_escape. replace (margin d ++ "<" ++ k ++ ">" ++ escape s ++ "</" ++ k ++ ">") with (margin d ++ "<" ++ k ++ (">" ++ escape s ++ "</") ++ k ++ ">") by (rewrite !app_assoc_s; reflexivity).
      apply tag_line; [exact N|cbn; repeat split; discriminate| |cbn; repeat split; discriminate]. rewrite !free_app. split; [cbn; repeat split; discriminate|]. split; [apply escape_line, LT|cbn; repeat split; discriminate].
    - intros d k q N S. constructor; [|constructor].
      rewrite marked_escape. replace (margin d ++ "<" ++ k ++ ">" ++ escape (show (VNum q)) ++ "</" ++ k ++ ">") with (margin d ++ "<" ++ k ++ (">" ++ escape (show (VNum q)) ++ "</") ++ k ++ ">") by (rewrite !app_assoc_s; reflexivity).
      apply tag_line; [exact N|cbn; repeat split; discriminate| |cbn; repeat split; discriminate]. rewrite !free_app. split; [cbn; repeat split; discriminate|]. split; [apply escape_line, (show_line show P)|cbn; repeat split; discriminate].
    - intros d k e ls _ IH N S. inversion S as [? S1|]; subst. inversion S1 as [| | |? NE ND IN]; subst. constructor; [apply (tag_line d k "<" ">" ""); auto; cbn; repeat split; discriminate|].
      apply Forall_app. split; [apply IH, IN|]. constructor; [|constructor]. apply (tag_line d k "</" ">" ""); auto; cbn; repeat split; discriminate.
    - constructor.
    - intros d k v e a b _ IH1 _ IH2 IN. apply Forall_app. split; [apply IH1; apply (IN k v); left; reflexivity|apply IH2; intros; apply IN; right; assumption].
    - intros d k l e a b _ IH1 _ IH2 IN. destruct (IN k (VList l) (or_introl eq_refl)) as [N S]. apply Forall_app. split; [|apply IH2; intros; apply IN; right; assumption].
      apply IH1; [exact N|]. inversion S as [? S1|? ? S1]; subst; [inversion S1|exact S1].
    - constructor.
    - intros d k v l a b _ IH1 _ IH2 N IN. apply Forall_app. split; [apply IH1; [exact N|constructor; apply IN; left; reflexivity]|apply IH2; [exact N|intros; apply IN; right; assumption]].
  Qed.
  Lemma ce_cat ls : Forall (free nl) ls -> ce (cat ls) = String.concat "" (map ended ls).
  Proof.
    induction 1 as [|l ls F _ IH]; [reflexivity|]. rewrite cat_cons, !ce_app, IH, (ce_free l F). cbn [map]. rewrite concat_cons. unfold ended. rewrite !app_assoc_s. reflexivity.
  Qed.
  Lemma text_lines root : shaped line_text root -> exists ls, lines show 0 "MaccorTestProcedure" root ls /\
    text_of show root = ended declaration ++ (instruction ++ String nl "") ++ String.concat "" (map ended ls).
  Proof.
    intro S. destruct (emit_lines show (P1 show P) root (shaped_line root S) 0 "MaccorTestProcedure") as (ls & L & E). exists ls. split; [exact L|].
    pose proof (lines_free _ _ _ _ L root_name (shaped_one _ _ S)) as F. rewrite <- (ce_cat ls F), <- E. unfold text_of, ended. generalize (emitS show shorts 0 "MaccorTestProcedure" root). intro t.
    rewrite ce_app, !app_assoc_s. reflexivity.
  Qed.
End Lines.
(** every line feed comes after a carriage return *)
Fixpoint after_cr (p : bool) (s : string) : bool :=
  match s with EmptyString => true | String c r => (if Ascii.eqb c nl then p else true) && after_cr (Ascii.eqb c cr) r end.
Lemma crlf_after s : crlf_lines s -> forall p, after_cr p s = true.
Proof.
  intros (ls & F & ->). induction ls as [|l ls IH]; intro p; [reflexivity|]. cbn [map]. rewrite concat_cons, app_assoc_s. specialize (IH (fun x X => F x (or_intror X))).
  specialize (F l (or_introl eq_refl)). revert p F. induction l as [|c l IHl]; intros p F; [cbn; apply IH|]. cbn [append after_cr]. destruct (Ascii.eqb_spec c nl) as [->|N]; [elim F; left; reflexivity|].
  apply IHl. intro I. apply F. right. exact I.
Qed.

(** ** The steps that are made *)
Section Made.
  Variable show : Q -> string.
  Hypothesis P : forall q, printable (show q).
  Lemma printable_app a b : printable a -> printable b -> printable (a ++ b).
  Proof. intros A B c I. rewrite list_app in I. apply in_app_or in I. destruct I; auto. Qed.
  Lemma digits_printable ds : Forall Proofs_Text.is_digit ds -> printable (digits_text ds).
  Proof.
    induction 1 as [|d ds D _ IH]; [intros c []|]. intros c [<-|I]; [|apply IH, I]. unfold digit_char, Proofs_Text.is_digit in *. rewrite nat_ascii_embedding by lia. lia.
  Qed.
  Lemma int_printable n : printable (str_int n).
  Proof.
    unfold str_int. destruct (n <? 0)%Z eqn:N.
    - apply (printable_app "-"); [apply printable_by; reflexivity|]. apply digits_printable, Proofs_Text.digits_of_spec. lia.
    - apply digits_printable, Proofs_Text.digits_of_spec. lia.
  Qed.
  Lemma num_printable n : printable (stringify_step_num n).
  Proof. unfold stringify_step_num, zfill. apply printable_app; [apply digits_printable, Proofs_Text.zeros_digit|apply int_printable]. Qed.
  Lemma fmt2_printable x : printable (fmt2 x).
  Proof.
    unfold fmt2, hundredths_text, pad2. set (z := round_even _). repeat apply printable_app.
    - destruct (z <? 0)%Z; apply printable_by; reflexivity.
    - apply digits_printable, Proofs_Text.digits_of_spec. apply Z.div_pos; lia.
    - apply printable_by; reflexivity.
    - apply digits_printable. apply Forall_app. split; [apply Proofs_Text.zeros_digit|]. apply Proofs_Text.digits_of_spec. apply Z.mod_pos_bound. lia.
  Qed.
  Lemma ok_same {A} (a b : A) : Ok a = Ok b -> b = a. Proof. congruence. Qed.
  Ltac unit H := repeat match type of H with (if ?b then _ else _) = _ => destruct b end; try discriminate H; apply ok_same in H; rewrite H; repeat (first [apply fmt2_printable | apply printable_app]); first [assumption | apply P | apply fmt2_printable | apply printable_by; reflexivity].
  Lemma time_printable v u t : b_convert_time show v u = Ok t -> printable t. Proof. unfold b_convert_time. intro H. cbv zeta in H. unit H. Qed.
  Lemma current_printable v u t : printable v -> b_convert_current v u = Ok t -> printable t. Proof. unfold b_convert_current. intros V H. unit H. Qed.
  Lemma voltage_printable v u t : printable v -> b_convert_voltage v u = Ok t -> printable t. Proof. unfold b_convert_voltage. intros V H. unit H. Qed.
  Lemma resistance_printable v u t : printable v -> b_convert_resistance v u = Ok t -> printable t. Proof. unfold b_convert_resistance. intros V H. unit H. Qed.
  Lemma power_printable v u t : printable v -> b_convert_power v u = Ok t -> printable t. Proof. unfold b_convert_power. intros V H. unit H. Qed.
  Ltac step H := match type of H with
    | bind ?x _ = _ => let E := fresh "E" in destruct x eqn:E; [cbn [bind] in H|discriminate H]
    | (if ?b then _ else _) = _ => let E := fresh "B" in destruct b eqn:E; try discriminate H
    | match ?x with Some _ => _ | None => _ end = _ => let E := fresh "O" in destruct x eqn:E; try discriminate H
    end.
  Ltac lit := apply printable_by; reflexivity.
  Lemma end_printable nums starts a b c d k e : create_end show nums starts a b c d k = Ok e -> printable_end e.
  Proof.
    unfold create_end. intro H. repeat step H. injection H as <-. unfold printable_end. cbn [be_type be_oper be_value be_step be_stepvalue].
    match goal with H : b_oper _ _ = Ok _ |- _ => rename H into HO end. match goal with H : b_limit _ _ _ _ = Ok _ |- _ => rename H into HL end.
    split; [|split; [|split; [|split; [apply num_printable|intros ? X; discriminate X]]]].
    - unfold b_limit in HL. repeat step HL; injection HL as <-; lit.
    - unfold b_oper in HO. repeat step HO; injection HO as <-; lit.
    - unfold b_limit in HL. repeat step HL; injection HL as <-; cbn [snd]; eauto using time_printable, current_printable, voltage_printable.
  Qed.
  Lemma report_printable d k r : create_report show d k = Ok r -> printable_report r.
  Proof.
    unfold create_report. intro H. repeat step H; injection H as <-; (split; cbn [br_type br_value]; [lit|]); eauto using time_printable, current_printable, voltage_printable, power_printable.
  Qed.
  Lemma mapM_all_printable {A B} (f : A -> result B) (R : B -> Prop) l m : (forall x y, In x l -> f x = Ok y -> R y) -> mapM f l = Ok m -> Forall R m.
  Proof.
    revert m. induction l as [|x l IH]; intros m H M; cbn [mapM] in M; [injection M as <-; constructor|].
    destruct (f x) eqn:E; [|discriminate M]. cbn [bind] in M. destruct (mapM f l) eqn:E2; [|discriminate M]. injection M as <-. constructor; [eapply H; [left; reflexivity|exact E]|apply IH; [intros; eapply H; [right; eassumption|eassumption]|reflexivity]].
  Qed.
  Lemma plain_printable t : printableb t = true -> printable_step (plain_step t).
  Proof. intro T. split; [apply printable_by, T|]. split; [lit|]. split; [lit|]. split; constructor. Qed.
  Lemma loop_printable nums d s : create_loop_step nums d = Ok s -> printable_step s.
  Proof.
    unfold create_loop_step. intro H. repeat step H. cbv zeta in H. repeat step H. injection H as <-. split; [lit|]. split; [lit|]. split; [lit|]. split; [|constructor].
    constructor; [|constructor]. split; [lit|]. split; [lit|]. split; [lit|]. split; [apply num_printable|]. intros t X. injection X as <-. apply int_printable.
  Qed.
  Lemma made_step_printable nums starts e d s : printable_value d -> create_step show nums starts e d = Ok s -> printable_step s.
  Proof.
    intros V H. unfold create_step in H. repeat step H. injection H as <-.
    match goal with H : fld d "ctrl1_val" = Ok _ |- _ => specialize (V _ H) end.
    match goal with H : b_control _ _ _ _ _ = Ok _ |- _ => rename H into HC end. match goal with H : b_direction _ = Ok _ |- _ => rename H into HD end.
    match type of HD with b_direction ?a = Ok ?b => assert (D : printable b) by (unfold b_direction in HD; step HD; injection HD as <-; destruct (String.eqb a " Charge "); lit) end.
    unfold printable_step. cbn [bs_type bs_mode bs_value bs_ends bs_reports].
    match type of HC with _ = Ok ?p => assert (C : printable (fst (fst p)) /\ printable (snd (fst p)) /\ printable (snd p)) end.
    { unfold b_control in HC. repeat step HC; injection HC as <-; cbn [fst snd]; (split; [|split]); try assumption; try lit; eauto using current_printable, voltage_printable, resistance_printable, power_printable. }
    destruct C as (C1 & C2 & C3). split; [exact C1|]. split; [exact C2|]. split; [exact C3|].
    split; [eapply mapM_all_printable; [|eassumption]; intros x y _ X; eapply end_printable, X|eapply mapM_all_printable; [|eassumption]; intros x y _ X; eapply report_printable, X].
  Qed.
  Lemma made_printable seqs steps : Forall printable_value seqs -> create_steps show seqs = Ok steps -> steps <> [] /\ Forall printable_step steps.
  Proof.
    intros V H. unfold create_steps in H. repeat step H. injection H as <-. split; [intro X; apply app_eq_nil in X; destruct X as [_ X]; discriminate X|].
    apply Forall_app. split; [|constructor; [apply plain_printable; reflexivity|constructor]].
    match goal with H : mapM info_of seqs = Ok ?l |- _ => rename H into HI; assert (VI : Forall (fun i => printable_value (i_dict i)) l) end.
    { eapply mapM_all_printable; [|exact HI]. intros x y I X. rewrite Forall_forall in V. unfold info_of in X. repeat step X; injection X as <-; cbn [i_dict]; apply V, I. }
    rewrite Forall_forall in VI.
    match goal with H : mapM (emit_seq _ _ _ _ _ _) _ = Ok _ |- _ => rename H into HE end.
    apply Forall_concat. eapply mapM_all_printable; [|exact HE]. intros i b I X. unfold emit_seq in X.
    destruct (zmem _ _); [injection X as <-; constructor|]. cbv zeta in X.
    match type of X with context[if ?c then [do_step] else []] => set (pre := if c then [do_step] else []) in X; assert (PP : Forall printable_step pre) by (unfold pre; destruct c; [constructor; [apply plain_printable; reflexivity|constructor]|constructor]) end.
    assert (AP : printable_step adv_step) by (apply plain_printable; reflexivity).
    step X; [injection X as <-; apply Forall_app; split; [exact PP|constructor; [exact AP|constructor]]|].
    step X.
    - step X. injection X as <-. apply Forall_app. split; [exact PP|]. constructor; [exact AP|]. constructor; [eapply loop_printable; eassumption|constructor].
    - step X. injection X as <-. apply Forall_app. split; [exact PP|]. constructor; [eapply made_step_printable; [|eassumption]; apply VI, I|constructor].
  Qed.
End Made.
