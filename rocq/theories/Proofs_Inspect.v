(** Lemmas for C144. *)
From Verif Require Import Py Model_CyclerFile Proofs_CyclerFile Model_Inspect Spec_Inspect.

Lemma ends_is e s : ends_with e s = true <-> ends e s.
Proof. split; [apply ends_with_iff|]. intros (a & ->). apply ends_with_app. Qed.
Lemma json_is file : (ends_with ".json" file || ends_with ".json.gz" file)%bool = true <-> json_name file.
Proof. rewrite orb_true_iff, !ends_is. reflexivity. Qed.
Lemma tabbed_is s : indented s (String tab (tabbed s)).
Proof.
  induction s as [|c s (l & N & A & E & G)].
  - exists [""%string]. split; [intro H; discriminate H|]. split; [constructor; [exact I|constructor]|]. split; reflexivity.
  - cbn [tabbed]. destruct (Ascii.eqb_spec c nl) as [->|D].
    + exists (""%string :: l). split; [intro H; discriminate H|]. split; [constructor; [exact I|exact A]|]. destruct l as [|x l]; [contradiction|]. split; [cbn [lines]; rewrite E; reflexivity|]. cbn [map]. cbn [lines]. cbn [map] in G. cbn [lines] in G. rewrite G. reflexivity.
    + destruct l as [|x l]; [contradiction|]. exists (String c x :: l). split; [intro H; discriminate H|]. inversion A as [|? ? A1 A2]; subst. split; [constructor; [split; assumption|exact A2]|]. split; [destruct l; reflexivity|].
      destruct l as [|y l]; cbn in G |- *; injection G as G; rewrite G; reflexivity.
Qed.
Lemma in_order_after l a out : in_order l out -> in_order l (a ++ out).
Proof. intro H. induction a; cbn; [exact H|]. apply not_yet. assumption. Qed.
Section Inspect.
  Context {V F : Type} (loadfn : string -> result (loaded V F)) (auto_load_processed auto_load : string -> result (obj V F)) (as_dict : obj V F -> result V).
  Notation load_any := (load_any loadfn as_dict). Notation load_file := (load_file loadfn auto_load_processed auto_load as_dict).
  Lemma any_ok file o : load_any file = Ok o <-> loadfn file = Ok (Object o) /\ exists d, as_dict o = Ok d.
  Proof.
    unfold Model_Inspect.load_any. destruct (loadfn file) as [[p|]|e]; cbn.
    - destruct (as_dict p) as [d|e] eqn:E; cbn.
      + split; [intro H; injection H as <-; split; [reflexivity|exists d; exact E]|]. intros (H & _). injection H as <-. reflexivity.
      + split; [intro H; discriminate H|]. intros (H & d & G). injection H as <-. congruence.
    - split; [intro H; discriminate H|]. intros (H & _). discriminate H.
    - split; [intro H; discriminate H|]. intros (H & _). discriminate H.
  Qed.
  Lemma any_err file e : load_any file = Err e <-> first_fails loadfn as_dict file e.
  Proof.
    unfold Model_Inspect.load_any, first_fails. destruct (loadfn file) as [[p|]|x]; cbn.
    - destruct (as_dict p) as [d|y] eqn:E; cbn.
      + split; [intro H; discriminate H|]. intros [H|[[H _]|(o & H & G)]]; try discriminate H. injection H as <-. congruence.
      + split; [intro H; injection H as <-; right; right; exists p; split; [reflexivity|exact E]|]. intros [H|[[H _]|(o & H & G)]]; try discriminate H. injection H as <-. congruence.
    - split; [intro H; injection H as <-; right; left; split; reflexivity|]. intros [H|[[_ ->]|(o & H & _)]]; try discriminate H. reflexivity.
    - split; [intro H; injection H as <-; left; reflexivity|]. intros [H|[[H _]|(o & H & _)]]; try discriminate H. injection H as <-. reflexivity.
  Qed.
  Lemma first_one file e x : first_fails loadfn as_dict file e -> first_fails loadfn as_dict file x -> e = x.
  Proof. rewrite <- !any_err. congruence. Qed.
  Lemma again_dec e : {tried_again e} + {~ tried_again e}.
  Proof. unfold tried_again. destruct e; ((left; cbn; intuition fail) || (right; cbn; intuition discriminate)). Qed.
  Definition second (file : string) : result (obj V F) :=
    if (ends_with ".json" file || ends_with ".json.gz" file)%bool
    then match auto_load_processed file with Ok o => Ok o | Err _ => Err ValueError end
    else match auto_load file with Ok o => Ok o | Err _ => Err ValueError end.
  Lemma load_second file : load_file file = match load_any file with Ok o => Ok o | Err e => if again_dec e then second file else Err e end.
  Proof. unfold Model_Inspect.load_file. fold (second file). destruct (load_any file) as [o|e]; [reflexivity|]. destruct (again_dec e) as [A|A]; destruct e; try reflexivity; cbn in A; exfalso; intuition discriminate. Qed.
  Lemma second_ok file o : second file = Ok o <-> (json_name file /\ auto_load_processed file = Ok o) \/ (~ json_name file /\ auto_load file = Ok o).
  Proof.
    unfold second. pose proof (json_is file) as J. destruct (_ || _)%bool.
    - assert (json_name file) by (apply J; reflexivity). destruct (auto_load_processed file); split; intro H'; [injection H' as <-; tauto|intuition congruence|discriminate H'|intuition discriminate].
    - assert (~ json_name file) by (intro N; apply J in N; discriminate N). destruct (auto_load file); split; intro H'; [injection H' as <-; tauto|intuition congruence|discriminate H'|intuition discriminate].
  Qed.
  Lemma second_err file e : second file = Err e <-> e = ValueError /\ ((json_name file /\ exists y, auto_load_processed file = Err y) \/ (~ json_name file /\ exists y, auto_load file = Err y)).
  Proof.
    unfold second. pose proof (json_is file) as J. destruct (_ || _)%bool.
    - assert (json_name file) by (apply J; reflexivity). destruct (auto_load_processed file) as [o|y]; split; intro H'; [discriminate H'| |injection H' as <-; split; [reflexivity|left; split; [assumption|eexists; reflexivity]]|].
      + destruct H' as [_ [[_ (y & H')]|[N _]]]; [discriminate H'|contradiction].
      + destruct H' as [-> _]. reflexivity.
    - assert (~ json_name file) by (intro N; apply J in N; discriminate N). destruct (auto_load file) as [o|y]; split; intro H'; [discriminate H'| |injection H' as <-; split; [reflexivity|right; split; [assumption|eexists; reflexivity]]|].
      + destruct H' as [_ [[N _]|[_ (y & H')]]]; [contradiction|discriminate H'].
      + destruct H' as [-> _]. reflexivity.
  Qed.
  Lemma load_ok file o : load_file file = Ok o <-> subject loadfn auto_load_processed auto_load as_dict file o.
  Proof.
    rewrite load_second. unfold subject. destruct (load_any file) as [p|e] eqn:L.
    - split.
      + intro H. injection H as <-. left. apply any_ok, L.
      + intros [H|(e & H & _)]; [apply any_ok in H; congruence|apply any_err in H; congruence].
    - apply any_err in L. destruct (again_dec e) as [A|A].
      + rewrite second_ok. split; [intro H; right; exists e; auto|]. intros [H|(x & H & _ & G)]; [|exact G]. apply any_ok in H. apply any_err in L. congruence.
      + split; [intro H; discriminate H|]. intros [H|(x & H & B & _)]; [apply any_ok in H; apply any_err in L; congruence|]. rewrite (first_one _ _ _ L H) in A. contradiction.
  Qed.
  Lemma load_err file e : load_file file = Err e <-> no_subject loadfn auto_load_processed auto_load as_dict file e.
  Proof.
    rewrite load_second. unfold no_subject. destruct (load_any file) as [p|x] eqn:L.
    - split; [intro H; discriminate H|]. intros [[H _]|(_ & x & H & _)]; apply any_err in H; congruence.
    - apply any_err in L. destruct (again_dec x) as [A|A].
      + rewrite second_err. split; [intros (E & G); right; split; [exact E|exists x; auto]|]. intros [[H B]|(E & y & H & _ & G)]; [rewrite (first_one _ _ _ L H) in A; contradiction|split; assumption].
      + split; [intro H; injection H as <-; left; split; assumption|]. intros [[H _]|(_ & y & H & B & _)]; [rewrite (first_one _ _ _ L H); reflexivity|]. rewrite (first_one _ _ _ L H) in A. contradiction.
  Qed.
End Inspect.
