(** Lemmas for C116-C118: whatever is read from a file. *)
From Verif Require Import Py Proofs_Diagnostic Proofs_Strings Model_Arbin Spec_Arbin Proofs_Arbin Model_Procedure Model_MaccorFile Spec_MaccorFile Proofs_MaccorFile Proofs_MaccorFile_Text Proofs_MaccorFile_Read Proofs_MaccorFile_Main Proofs_MaccorFile_File Proofs_MaccorFile_Lines.
Local Open Scope string_scope.

Definition all_text (s : string) : Prop := forall c, In c (list_ascii_of_string s) -> text_char c.
Lemma all_text_cons c s : all_text (String c s) <-> text_char c /\ all_text s.
Proof. unfold all_text. cbn [list_ascii_of_string In]. split; [intros H; split; [apply H; auto|intros; apply H; auto]|intros [A B] x [<- | X]; auto]. Qed.
Lemma all_text_app a b : all_text (a ++ b) <-> all_text a /\ all_text b.
Proof.
  unfold all_text. rewrite list_app. split; [intro H; split; intros; apply H, in_or_app; auto|intros [A B] c C; apply in_app_or in C; destruct C; auto].
Qed.
Lemma line_ends_text s : plain_file s -> all_text (line_ends s).
Proof.
  assert (N : text_char nl) by (right; left; reflexivity).
  induction s as [|c s IH]; intro P; [intros ? []|]. assert (PS : plain_file s) by (intros x X; apply P; right; exact X). specialize (IH PS). cbn [line_ends].
  destruct (Ascii.eqb_spec c cr) as [-> | NC].
  - destruct s as [|d s]; [apply all_text_cons; split; [exact N|intros ? []]|]. destruct (Ascii.eqb d nl); [exact IH|]. apply all_text_cons. split; [exact N|exact IH].
  - apply all_text_cons. split; [|exact IH]. destruct (P c (or_introl eq_refl)) as [T|T]; [exact T|]. exfalso. apply NC. apply (f_equal ascii_of_nat) in T. rewrite ascii_nat_embedding in T. exact T.
Qed.
Lemma reference_text s r : reference s = Some r -> text_char (snd r).
Proof.
  intro H. apply find_some in H. destruct H as [H _]. unfold text_char. cbn in H. repeat destruct H as [<- | H]; try contradiction; right; right; cbn; split; repeat constructor.
Qed.
Lemma unescape_text s : forall k t, all_text s -> unescape s k = Ok t -> all_text t.
Proof.
  induction s as [|c s IH]; intros k t A H; cbn [unescape] in H; [injection H as <-; intros ? []|]. apply all_text_cons in A. destruct A as [C A]. destruct k as [|k]; [|exact (IH _ _ A H)].
  destruct (negb (xml_char c)); [discriminate|]. destruct (Ascii.eqb c "&").
  - destruct (reference (String c s)) as [[n d]|] eqn:R; [|discriminate]. destruct (unescape s _) as [u|] eqn:U; [|discriminate]. injection H as <-. apply all_text_cons. split; [apply (reference_text _ _ R)|exact (IH _ _ A U)].
  - destruct (unescape s 0) as [u|] eqn:U; [|discriminate]. injection H as <-. apply all_text_cons. split; [exact C|exact (IH _ _ A U)].
Qed.
Definition text_token (t : token) : Prop := match t with Chars s => all_text s | _ => True end.
Lemma chars_text s l : all_text s -> chars s = Ok l -> Forall text_token l.
Proof.
  intros A H. unfold chars in H. destruct s as [|c s]; [injection H as <-; constructor|]. destruct (unescape (String c s) 0) as [t|] eqn:U; [|discriminate]. injection H as <-. constructor; [|constructor].
  exact (unescape_text _ _ _ A U).
Qed.
Lemma tag_text s l : tag s = Ok l -> Forall text_token l.
Proof.
  unfold tag. destruct s as [|c r]; [discriminate|]. destruct (Ascii.eqb c "?").
  - destruct (split_last r) as [[x d]|]; [|discriminate]. destruct (Ascii.eqb d "?"); [|discriminate]. intro H. injection H as <-. constructor.
  - destruct (Ascii.eqb c "/").
    + destruct (xml_name r); [|discriminate]. intro H. injection H as <-. repeat constructor.
    + destruct (split_last (String c r)) as [[n d]|]; [|discriminate]. destruct (Ascii.eqb d "/").
      * destruct (xml_name n); [|discriminate]. intro H. injection H as <-. repeat constructor.
      * destruct (xml_name (String c r)); [|discriminate]. intro H. injection H as <-. repeat constructor.
Qed.
Lemma lex_text s : forall acc b ts, all_text s -> all_text acc -> lex s acc b = Ok ts -> Forall text_token ts.
Proof.
  induction s as [|c s IH]; intros acc b ts A B H; cbn [lex] in H.
  - destruct b; [discriminate|exact (chars_text _ _ B H)].
  - apply all_text_cons in A. destruct A as [C A]. assert (E : all_text "") by (intros ? []).
    assert (AC : all_text (acc ++ String c "")) by (apply all_text_app; split; [exact B|]; apply all_text_cons; auto).
    destruct b.
    + destruct (Ascii.eqb c "<"); [discriminate|]. destruct (Ascii.eqb c ">"); [|exact (IH _ _ _ A AC H)].
      destruct (tag acc) as [t|] eqn:T; [|discriminate]. cbn [bind] in H. destruct (lex s "" false) as [us|] eqn:U; [|discriminate]. injection H as <-.
      apply Forall_app. split; [exact (tag_text _ _ T)|exact (IH _ _ _ A E U)].
    + destruct (Ascii.eqb c "<"); [|exact (IH _ _ _ A AC H)].
      destruct (chars acc) as [t|] eqn:T; [|discriminate]. cbn [bind] in H. destruct (lex s "" true) as [us|] eqn:U; [|discriminate]. injection H as <-.
      apply Forall_app. split; [exact (chars_text _ _ B T)|exact (IH _ _ _ A E U)].
Qed.

(** ** Values, whatever the names *)
Inductive weak : val -> Prop :=
| weak_none : weak VNone
| weak_text s : good_text s -> s <> "" -> weak (VText s)
| weak_dict d : d <> [] -> NoDup (map fst d) -> (forall k v, In (k, v) d -> weak_field v) -> weak (VDict d)
with weak_field : val -> Prop :=
| weak_one v : weak v -> weak_field v
| weak_many l : (2 <= length l)%nat -> (forall v, In v l -> weak v) -> weak_field (VList l).
Definition weak_item (i : option (list (string * val))) : Prop := match i with Some d => weak (VDict d) | None => True end.
Lemma in_sset d k (v : val) k' v' : In (k', v') (sset d k v) -> v' = v \/ In (k', v') d.
Proof.
  unfold sset. induction d as [|[k0 v0] d IH]; cbn.
  - intros [E|[]]. injection E as <- <-. auto.
  - destruct (String.eqb k k0); cbn; intros [E|H]; auto.
    + injection E as <- <-. auto.
    + destruct (IH H); auto.
Qed.
Lemma keys_sset d k (v : val) : NoDup (map fst d) -> NoDup (map fst (sset d k v)).
Proof.
  unfold sset. induction d as [|[k0 v0] d IH]; intro N; cbn; [repeat constructor; intros []|]. inversion N as [|? ? N1 N2]; subst. destruct (String.eqb_spec k k0); cbn; [constructor; assumption|].
  constructor; [|exact (IH N2)]. clear - N1 n. induction d as [|[k2 v2] d IH]; cbn.
  - intros [E|[]]. congruence.
  - cbn in N1. destruct (String.eqb_spec k k2); cbn; [intuition congruence|]. intros [E|J]; [intuition congruence|]. apply IH; [tauto|exact J].
Qed.
Lemma sset_not_nil d k (v : val) : sset d k v <> [].
Proof. unfold sset. destruct d as [|[k0 v0] d]; cbn; [discriminate|]. destruct (String.eqb k k0); discriminate. Qed.
Lemma push_weak i k v : weak_item i -> weak v -> weak_item (push_data i k v).
Proof.
  intros I V. unfold push_data. set (d := match i with Some d => d | None => [] end).
  assert (D : NoDup (map fst d) /\ forall k v, In (k, v) d -> weak_field v).
  { unfold d. destruct i as [e|]; [inversion I; subst; split; assumption|split; [constructor|intros ? ? []]]. }
  destruct D as [N W]. cbn [weak_item].
  assert (G : forall w, weak_field w -> weak (VDict (sset d k w))).
  { intros w X. constructor; [apply sset_not_nil|apply keys_sset, N|]. intros k' v' J. apply in_sset in J. destruct J as [-> | J]; [exact X|exact (W _ _ J)]. }
  destruct (sget d k) as [w|] eqn:S; [|apply G, weak_one, V].
  assert (X : weak_field w). { unfold sget in S. clear - S W. induction d as [|[k0 v0] d IH]; [discriminate S|]. cbn in S. destruct (String.eqb k k0); [injection S as <-; apply (W k0); left; reflexivity|]. apply IH; [intros; apply (W k1); right; assumption|exact S]. }
  destruct w as [| | |e|l]; try (apply G, weak_many; [repeat constructor|]; intros x [<- |[<- |[]]]; [inversion X; assumption|exact V]).
  apply G. inversion X as [? Y|? L Y]; subst; [inversion Y|]. apply weak_many; [rewrite app_length; cbn; lia|]. intros x J. apply in_app_or in J. destruct J as [J|[<- |[]]]; [apply Y, J|exact V].
Qed.

Lemma lstrip_sub s c : In c (list_ascii_of_string (lstrip s)) -> In c (list_ascii_of_string s).
Proof. induction s as [|x s IH]; cbn; [auto|]. destruct (is_space x); auto. Qed.
Lemma rstrip_sub s c : In c (list_ascii_of_string (rstrip s)) -> In c (list_ascii_of_string s).
Proof.
  induction s as [|x s IH]; cbn; [auto|]. destruct (rstrip s) as [|y t].
  - destruct (is_space x); cbn; [tauto|]. tauto.
  - cbn in *. tauto.
Qed.
Lemma lstrip_first s : no_blank_first (lstrip s).
Proof.
  induction s as [|x s IH]; [intros c r E; discriminate|]. cbn. destruct (is_space x) eqn:S; [exact IH|]. intros c r E. injection E as <- _. rewrite <- is_space_iff, S. discriminate.
Qed.
Lemma rstrip_first s c r : rstrip s = String c r -> exists r', s = String c r'.
Proof.
  destruct s as [|x s]; [discriminate|]. cbn. destruct (rstrip s); [destruct (is_space x); [discriminate|]|]; intro E; injection E as <- _; eauto.
Qed.
Lemma rstrip_last s : no_blank_last (rstrip s).
Proof.
  induction s as [|x s IH]; intros a c E; cbn in E; [destruct a; discriminate|]. destruct (rstrip s) as [|y t].
  - destruct (is_space x) eqn:S; [destruct a; discriminate|]. destruct a as [|z a]; [injection E as <-; rewrite <- is_space_iff, S; discriminate|]. destruct a; discriminate.
  - destruct a as [|z a]; [discriminate|]. cbn in E. injection E as _ E. exact (IH a c E).
Qed.
Lemma strip_good s : all_text s -> strip s <> "" -> good_text (strip s).
Proof.
  intros A N. unfold strip in *. split.
  - intros c C. apply A. apply lstrip_sub, rstrip_sub, C.
  - split; [|apply rstrip_last]. intros c r E. apply rstrip_first in E. destruct E as [r' E]. exact (lstrip_first s c r' E).
Qed.
Lemma finished_weak i s : weak_item i -> all_text s -> weak (finished i s).
Proof.
  intros I A. pose proof (strip_good s A) as G. unfold finished. destruct (strip s) as [|c t].
  - destruct i as [d|]; [exact I|constructor].
  - specialize (G ltac:(discriminate)). destruct i as [d|]; [|constructor; [exact G|discriminate]].
    pose proof (push_weak (Some d) "#text" (VText (String c t)) I (weak_text _ G ltac:(discriminate))) as P. destruct (push_data (Some d) "#text" (VText (String c t))); [exact P|exact I].
Qed.
Lemma handle_weak ts : Forall text_token ts -> forall st i d p, Forall (fun f => weak_item (snd (fst f)) /\ all_text (snd f)) st -> weak_item i -> all_text d ->
  handle ts st i d = Ok p -> weak p.
Proof.
  induction 1 as [|t ts T _ IH]; intros st i d p S I D H; cbn [handle] in H.
  - destruct st; [|discriminate]. destruct i as [e|]; [|discriminate]. injection H as <-. exact I.
  - destruct t as [n|n|s].
    + assert (G : handle ts ((n, i, d) :: st) None "" = Ok p -> weak p). { apply IH; [constructor; [split; assumption|exact S]|exact Logic.I|intros ? []]. }
      destruct st; [destruct i; [discriminate|]|]; exact (G H).
    + destruct st as [|[[m i0] d0] st]; [discriminate|]. destruct (String.eqb n m); [|discriminate]. inversion S as [|? ? [S1 S2] S3]; subst. cbn [fst snd] in *.
      eapply IH; [exact S3| |exact S2|exact H]. apply push_weak; [exact S1|apply finished_weak; assumption].
    + destruct st as [|f st].
      * destruct (strip s); [|discriminate]. eapply IH; eassumption.
      * eapply IH; [exact S|exact I| |exact H]. apply all_text_app. split; [exact D|exact T].
Qed.
Lemma weak_filled v : (named v -> weak v -> filled v) /\ (named v -> weak_field v -> shaped_field (fun s => good_text s /\ s <> "") v).
Proof.
  assert (F : forall v, (named v -> weak v -> filled v) -> (forall l, v = VList l -> forall x, In x l -> named x -> weak x -> filled x) -> named v -> weak_field v -> shaped_field (fun s => good_text s /\ s <> "") v).
  { intros w A B N W. inversion W as [? W1|l L WL]; subst; [apply shaped_one, A; assumption|]. inversion N; subst. apply shaped_many; [exact L|]. intros x X. apply (B l eq_refl x X); auto. }
  revert v. assert (Q : forall v, (named v -> weak v -> filled v)).
  { induction v using val_nested; intros N W; inversion W; subst; [constructor|constructor; auto|]. inversion N; subst. constructor; try assumption.
    intros k v I. destruct (H5 k v I) as [K NV]. split; [exact K|]. rewrite Forall_forall in H. apply F; [exact (H _ I)| |exact NV|exact (H4 k v I)].
    intros l -> x X. specialize (H0 _ _ I). rewrite Forall_forall in H0. exact (H0 x X). }
  intro v. split; [apply Q|]. apply F; [apply Q|intros; apply Q; assumption].
Qed.
Lemma read_filled text p : plain_file text -> from_file text = Ok p -> named p -> filled p.
Proof.
  intros A H N. unfold from_file in H. destruct (lex (line_ends text) "" false) as [ts|] eqn:L; [|discriminate]. apply weak_filled; [exact N|].
  refine (handle_weak ts _ [] None "" p (Forall_nil _) Logic.I _ H); [|intros ? []]. eapply lex_text; [apply line_ends_text, A| |exact L]. intros ? [].
Qed.
(** no numbers are read *)
Lemma weak_texts show v : (weak v -> as_read show v = v) /\ (weak_field v -> as_read show v = v).
Proof.
  assert (Q : forall v, (weak v -> as_read show v = v)).
  { induction v0 using val_nested; intro W; inversion W as [|? GT NT|? NE ND IN]; subst; try reflexivity; [destruct s; [congruence|reflexivity]|]. cbn [as_read]. f_equal. rewrite Forall_forall in H. rewrite <- (map_id d) at 2. apply map_ext_in.
    intros [k w] I. cbn [fst snd]. f_equal. pose proof (H _ I) as HW. cbn [snd] in HW. specialize (IN k w I). inversion IN as [? W1|l L WL]; subst; [exact (HW W1)|].
    cbn [as_read]. f_equal. rewrite <- (map_id l) at 2. apply map_ext_in. intros x X. specialize (H0 _ _ I). rewrite Forall_forall in H0. exact (H0 x X (WL x X)). }
  split; [apply Q|]. intro W. inversion W as [? W1|l L WL]; subst; [exact (Q _ W1)|]. cbn [as_read]. f_equal. rewrite <- (map_id l) at 2. apply map_ext_in. intros x X. exact (Q x (WL x X)).
Qed.
Lemma read_texts show text p : plain_file text -> from_file text = Ok p -> as_read show p = p.
Proof.
  intros A H. unfold from_file in H. destruct (lex (line_ends text) "" false) as [ts|] eqn:L; [|discriminate]. apply (proj1 (weak_texts show p)).
  refine (handle_weak ts _ [] None "" p (Forall_nil _) Logic.I _ H); [|intros ? []]. eapply lex_text; [apply line_ends_text, A| |exact L]. intros ? [].
Qed.

(** ** Again *)
Section Again.
  Variable show : val -> string.
  Hypothesis P : prints show.
  Notation back := (numbers_as_text show).
  Lemma back_legal v : shaped legal_text v -> shaped legal_text (back v).
  Proof.
    induction v using val_nested; intro S; inversion S as [| |? LT|? NE ND IN]; subst; try (constructor; assumption); [constructor; apply P|].
    cbn [numbers_as_text]. constructor.
    - destruct d; [congruence|discriminate].
    - rewrite map_map. exact ND.
    - intros k v I. apply in_map_iff in I. destruct I as ((k', w) & E & I). injection E as <- <-. destruct (IN _ _ I) as [K W]. split; [exact K|]. cbn [snd].
      rewrite Forall_forall in H. inversion W as [? W1|l L WL]; subst; [apply shaped_one, (H _ I), W1|]. specialize (H0 _ _ I). rewrite Forall_forall in H0. cbn [numbers_as_text].
      apply shaped_many; [rewrite map_length; exact L|]. intros x X. apply in_map_iff in X. destruct X as (y & <- & Y). apply H0; auto.
  Qed.
  Lemma again p : filled p -> complete p -> exists text, to_file show p = Ok text /\ from_file text = Ok (as_read show p) /\ to_file show (as_read show p) = Ok text.
  Proof.
    intros A B. destruct (written show P p (filled_plain p A) B) as (text & f & root & F & _ & R & S & W & T & RD). exists text. split; [exact W|]. split; [exact RD|]. rewrite (proj1 (filled_back show p) A).
    pose proof (format_back show p f F) as FB. rewrite R in FB. cbn [numbers_as_text map fst snd] in FB.
    rewrite (to_file_text show P (back p) _ (back root) FB eq_refl (back_legal root S)), T. rewrite (back_elements show shorts root 0 _ S). reflexivity.
  Qed.
  Lemma laid_out p : plain p -> complete p -> exists text f ls, to_file show p = Ok text /\ procedure_padded p f /\ file_lines show f ls /\ text = join (String nl "") ls.
  Proof.
    intros A B. destruct (written show P p A B) as (text & f & root & F & PP & R & S & W & T & RD). destruct (file_text show P root S) as (ls & L & E). exists text, f, ls. subst f. split; [exact W|]. split; [exact PP|]. split; [exact L|]. rewrite T. exact E.
  Qed.
  Lemma resaved text p : plain_file text -> from_file text = Ok p -> named p -> complete p ->
    exists text', to_file show p = Ok text' /\ from_file text' = Ok p.
  Proof.
    intros A F N C. destruct (again p (read_filled _ _ A F N) C) as (t & W & R & _). rewrite (read_texts show _ _ A F) in R. exists t. split; [exact W|exact R].
  Qed.
End Again.
