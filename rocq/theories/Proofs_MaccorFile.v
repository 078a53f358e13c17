(** Lemmas for C116-C118: what is written and read, character by character. *)
From Verif Require Import Py Proofs_Diagnostic Proofs_Strings Model_Arbin Spec_Arbin Proofs_Arbin Model_Procedure Model_MaccorFile Spec_MaccorFile.
Local Open Scope string_scope.

Lemma val_nested (P : val -> Prop) :
  P VNone -> (forall s, P (VText s)) -> (forall q, P (VNum q)) ->
  (forall d, Forall (fun kv => P (snd kv)) d -> (forall k l, In (k, VList l) d -> Forall P l) -> P (VDict d)) ->
  (forall l, Forall P l -> P (VList l)) -> forall v, P v.
Proof.
  intros HN HT HQ HD HL.
  assert (A : forall v, P v /\ match v with VList l => Forall P l | _ => True end).
  { fix IH 1. intros [|s|q|d|l].
    - split; [exact HN|exact Logic.I].
    - split; [apply HT|exact Logic.I].
    - split; [apply HQ|exact Logic.I].
    - split; [|exact Logic.I].
      assert (B : Forall (fun kv => P (snd kv) /\ match snd kv with VList l => Forall P l | _ => True end) d).
      { induction d as [|[k v] d IHd]; constructor; [apply IH|exact IHd]. }
      apply HD.
      + eapply Forall_impl; [|exact B]. intros a [H _]. exact H.
      + intros k l H. rewrite Forall_forall in B. destruct (B _ H) as [_ F]. exact F.
    - assert (B : Forall P l). { induction l as [|v l IHl]; constructor; [apply (IH v)|exact IHl]. }
      split; [apply HL, B|exact B]. }
  intro v. apply A.
Qed.

(** ** Characters *)
Fixpoint free (c : ascii) (s : string) : Prop := match s with EmptyString => True | String d r => d <> c /\ free c r end.
Lemma free_app c a b : free c (a ++ b) <-> free c a /\ free c b.
Proof. induction a as [|d a IH]; cbn; [tauto|]. rewrite IH. tauto. Qed.
Lemma free_in c s : free c s <-> ~ In c (list_ascii_of_string s).
Proof. induction s as [|d s IH]; cbn; [tauto|]. rewrite IH. split; [intros [H1 H2] [E|E]; tauto|intro H; split; intro E; apply H; auto]. Qed.
Lemma blank_free c n : c <> " "%char -> free c (blank n).
Proof. intro H. induction n; cbn; auto. Qed.
Lemma forall_ascii (f : ascii -> bool) : forallb f (map ascii_of_nat (seq 0 256)) = true -> forall c, f c = true.
Proof.
  intros H c. rewrite forallb_forall in H. apply H, in_map_iff. exists (nat_of_ascii c). split; [apply ascii_nat_embedding|].
  apply in_seq. pose proof (nat_ascii_bounded c). lia.
Qed.
Lemma in_by (l m : list ascii) : forallb (fun c => existsb (Ascii.eqb c) m) l = true -> forall c, In c l -> In c m.
Proof.
  intros H c J. rewrite forallb_forall in H. specialize (H c J). apply existsb_exists in H. destruct H as (d & M & E). apply Ascii.eqb_eq in E. subst d. exact M.
Qed.
Lemma by_list (f : ascii -> bool) l : forallb f l = true -> forall c, In c l -> f c = true.
Proof. intros H c J. rewrite forallb_forall in H. apply H, J. Qed.

Lemma name_ok k : field_name k -> xml_name k = true /\ free "<" k /\ free ">" k /\ free "/" k /\ free cr k /\
  exists c r, k = String c r /\ name_char c = true /\ c <> "/"%char /\ c <> "?"%char.
Proof.
  intros (c & r & -> & C & R).
  assert (C' : In c name_letters) by (apply in_or_app; left; exact C).
  assert (F : forall x, In x name_letters -> negb (existsb (Ascii.eqb x) ["<"; ">"; "/"; "?"; cr]%char) = true) by (apply by_list; vm_compute; reflexivity).
  assert (G : forall x y, In x name_letters -> In y ["<"; ">"; "/"; "?"; cr]%char -> x <> y).
  { intros x y X Y E. subst y. specialize (F x X). apply negb_true_iff in F. rewrite <- not_true_iff_false in F. apply F, existsb_exists. exists x. rewrite Ascii.eqb_refl. auto. }
  assert (N : forall y, In y ["<"; ">"; "/"; "?"; cr]%char -> free y (String c r)).
  { intros y Y. split; [apply G; assumption|]. apply free_in. intro H. exact (G _ _ (R _ H) Y eq_refl). }
  split; [|repeat split; try (apply N; cbn; tauto)].
  - cbn. apply andb_true_iff. split; [revert C; apply by_list; vm_compute; reflexivity|].
    apply forallb_forall. intros x X. specialize (R x X). revert R. apply by_list. vm_compute. reflexivity.
  - exists c, r. split; [reflexivity|]. split; [revert C'; apply by_list; vm_compute; reflexivity|]. split; apply G; cbn; tauto.
Qed.

(** blanks and line ends *)
Fixpoint ws (s : string) : Prop := match s with EmptyString => True | String c r => (c = " "%char \/ c = nl) /\ ws r end.
Lemma ws_app a b : ws (a ++ b) <-> ws a /\ ws b.
Proof. induction a as [|d a IH]; cbn; [tauto|]. rewrite IH. tauto. Qed.
Lemma ws_blank n : ws (blank n).
Proof. induction n; cbn; auto. Qed.
Lemma ws_space s : ws s -> all_space s = true.
Proof. induction s as [|c s IH]; [reflexivity|]. intros [[-> | ->] H]; cbn; apply IH, H. Qed.
Lemma ws_free s c : ws s -> c <> " "%char -> c <> nl -> free c s.
Proof. intros W A B. induction s as [|d s IH]; [exact Logic.I|]. destruct W as [[-> | ->] W]; split; auto. Qed.
Lemma ws_unescape s : ws s -> unescape s 0 = Ok s.
Proof. induction s as [|c s IH]; [reflexivity|]. intros [[-> | ->] H]; cbn; rewrite (IH H); reflexivity. Qed.
Lemma strip_ws s : ws s -> strip s = "".
Proof.
  intro W. apply ws_space in W. unfold strip. rewrite <- (app_nil_s s), lstrip_space by exact W. reflexivity.
Qed.

(** ** Escaping *)
Lemma escape_free s : free "<" (escape s) /\ free ">" (escape s).
Proof.
  induction s as [|c s [A B]]; [split; exact Logic.I|]. cbn.
  destruct (Ascii.eqb_spec c "&"); [cbn; repeat split; try discriminate; assumption|].
  destruct (Ascii.eqb_spec c "<"); [cbn; repeat split; try discriminate; assumption|].
  destruct (Ascii.eqb_spec c ">"); [cbn; repeat split; try discriminate; assumption|].
  cbn. repeat split; assumption.
Qed.
Lemma escape_char_free x s : free x s -> free x "&amp;" -> free x "&lt;" -> free x "&gt;" -> free x (escape s).
Proof.
  intros F A B C. induction s as [|c s IH]; [exact Logic.I|]. destruct F as [F1 F2]. specialize (IH F2). cbn [escape].
  apply free_app. split; [|exact IH].
  destruct (Ascii.eqb_spec c "&"); [exact A|]. destruct (Ascii.eqb_spec c "<"); [exact B|]. destruct (Ascii.eqb_spec c ">"); [exact C|]. split; auto. exact Logic.I.
Qed.
Lemma escape_nonempty s : s <> "" -> exists c r, escape s = String c r /\ c <> "<"%char.
Proof.
  destruct s as [|c s]; [congruence|]. intros _. cbn.
  destruct (Ascii.eqb_spec c "&"); [eexists _, _; split; [reflexivity|discriminate]|].
  destruct (Ascii.eqb_spec c "<"); [eexists _, _; split; [reflexivity|discriminate]|].
  destruct (Ascii.eqb_spec c ">"); [eexists _, _; split; [reflexivity|discriminate]|].
  eexists _, _. split; [reflexivity|assumption].
Qed.
Lemma prefix_nil s : prefix "" s = true. Proof. destruct s; reflexivity. Qed.
Lemma unescape_escape s : (forall c, In c (list_ascii_of_string s) -> text_char c) -> unescape (escape s) 0 = Ok s.
Proof.
  induction s as [|c s IH]; [reflexivity|]. intro H.
  assert (IH' : unescape (escape s) 0 = Ok s) by (apply IH; intros x X; apply H; right; exact X).
  assert (L : xml_char c = true).
  { specialize (H c (or_introl eq_refl)). unfold text_char in H. unfold xml_char. destruct (Nat.leb_spec 32 (nat_of_ascii c)) as [_|G]; [reflexivity|].
    destruct H as [H|[H|H]]; [| |lia]; rewrite <- (ascii_nat_embedding c), H; reflexivity. }
  cbn [escape].
  destruct (Ascii.eqb_spec c "&") as [->|N1]; [cbn; rewrite prefix_nil; cbn; rewrite IH'; reflexivity|].
  destruct (Ascii.eqb_spec c "<") as [->|N2]; [cbn; rewrite prefix_nil; cbn; rewrite IH'; reflexivity|].
  destruct (Ascii.eqb_spec c ">") as [->|N3]; [cbn; rewrite prefix_nil; cbn; rewrite IH'; reflexivity|].
  cbn [append unescape]. rewrite L. cbn [negb]. destruct (Ascii.eqb_spec c "&"); [contradiction|]. rewrite IH'. reflexivity.
Qed.

Lemma escape_marked s : escape s = marked_text s.
Proof.
  unfold marked_text. induction s as [|c s IH]; [reflexivity|]. cbn [escape list_ascii_of_string map]. rewrite IH.
  unfold marked. destruct (map _ (list_ascii_of_string s)) as [|x l]; cbn [String.concat]; [rewrite app_nil_s; reflexivity|reflexivity].
Qed.
Lemma concat_cons x l : String.concat "" (x :: l) = (x ++ String.concat "" l)%string.
Proof. destruct l as [|y l]; cbn; [symmetry; apply app_nil_s|reflexivity]. Qed.
Lemma concat_app a b : String.concat "" (a ++ b)%list = (String.concat "" a ++ String.concat "" b)%string.
Proof. induction a as [|x a IH]; [reflexivity|]. cbn [app]. rewrite !concat_cons, IH, app_assoc_s. reflexivity. Qed.

(** ** Reading piece by piece *)
Definition run (s acc : string) st item data : result val := let! ts := lex s acc false in handle ts st item data.
Lemma run_text t s acc st item data : free "<" t -> run (t ++ s) acc st item data = run s (acc ++ t) st item data.
Proof.
  unfold run. revert acc. induction t as [|c t IH]; intros acc F; [cbn; rewrite app_nil_s; reflexivity|].
  destruct F as [F1 F2]. cbn [append lex]. destruct (Ascii.eqb_spec c "<"); [contradiction|]. rewrite IH by exact F2.
  rewrite app_assoc_s. reflexivity.
Qed.
Lemma lex_tag t s acc : free "<" t -> free ">" t -> lex (t ++ ">" ++ s) acc true = let! k := tag (acc ++ t) in let! ts := lex s "" false in Ok (k ++ ts)%list.
Proof.
  revert acc. induction t as [|c t IH]; intros acc F G; [cbn; rewrite app_nil_s; reflexivity|].
  destruct F as [F1 F2], G as [G1 G2]. cbn [append lex]. destruct (Ascii.eqb_spec c "<"); [contradiction|]. destruct (Ascii.eqb_spec c ">"); [contradiction|].
  rewrite IH by assumption. rewrite app_assoc_s. reflexivity.
Qed.
Lemma chars_ws s : ws s -> exists l, chars s = Ok l /\ forall r st item data,
  exists x, ws x /\ handle (l ++ r) st item data = handle r st item (data ++ x).
Proof.
  intro W. destruct s as [|c s].
  - exists []. split; [reflexivity|]. intros. exists "". rewrite app_nil_s. split; [exact Logic.I|reflexivity].
  - exists [Chars (String c s)]. unfold chars. rewrite (ws_unescape _ W). split; [reflexivity|]. intros. cbn [app handle].
    destruct st as [|f st].
    + rewrite (strip_ws _ W). exists "". rewrite app_nil_s. split; [exact Logic.I|reflexivity].
    + exists (String c s). split; [exact W|reflexivity].
Qed.
Lemma run_tag t s acc st item data ks : free "<" t -> free ">" t -> ws acc -> tag t = Ok ks ->
  exists x, ws x /\ run ("<" ++ t ++ ">" ++ s) acc st item data = let! ts := lex s "" false in handle (ks ++ ts) st item (data ++ x).
Proof.
  intros F G W T. destruct (chars_ws acc W) as (l & C & H).
  unfold run. change ("<" ++ t ++ ">" ++ s) with (String "<" (t ++ ">" ++ s)). cbn [lex]. rewrite Ascii.eqb_refl, C, lex_tag by assumption. cbn [append bind].
  rewrite T. cbn [bind]. destruct (lex s "" false) as [ts|e]; cbn [bind].
  - destruct (H (ks ++ ts)%list st item data) as (x & X & E). exists x. split; [exact X|]. exact E.
  - exists "". split; [exact Logic.I|reflexivity].
Qed.
Lemma tag_instruction t d : tag (String "?" (t ++ String d "")) = if Ascii.eqb d "?" then Ok [] else Err expat.
Proof.
  cbn. assert (E : split_last (t ++ String d "") = Some (t, d)). { induction t as [|c t IH]; [reflexivity|]. cbn. rewrite IH. reflexivity. }
  rewrite E. reflexivity.
Qed.
Lemma split_last_snoc t d : split_last (t ++ String d "") = Some (t, d).
Proof. induction t as [|c t IH]; [reflexivity|]. cbn. rewrite IH. reflexivity. Qed.
Lemma tag_open k : field_name k -> tag k = Ok [Open k].
Proof.
  intro N. destruct (name_ok k N) as (X & _ & _ & F & _ & c & r & E & _ & C1 & C2).
  destruct (last_char k) as (a & d & L); [intros ->; discriminate E|].
  assert (D : d <> "/"%char). { rewrite L in F. apply free_app in F. destruct F as [_ [F _]]. exact F. }
  unfold tag. rewrite E. destruct (Ascii.eqb_spec c "?"); [contradiction|]. destruct (Ascii.eqb_spec c "/"); [contradiction|].
  rewrite <- E. rewrite L at 1. rewrite split_last_snoc. destruct (Ascii.eqb_spec d "/"); [contradiction|]. rewrite X. reflexivity.
Qed.
Lemma tag_close k : field_name k -> tag (String "/" k) = Ok [Close k].
Proof. intro N. destruct (name_ok k N) as (X & _). cbn. rewrite X. reflexivity. Qed.
Lemma tag_short k : field_name k -> tag (k ++ "/") = Ok [Open k; Close k].
Proof.
  intro N. destruct (name_ok k N) as (X & _ & _ & F & _ & c & r & E & _ & C1 & C2).
  unfold tag. rewrite E. cbn [append]. destruct (Ascii.eqb_spec c "?"); [contradiction|]. destruct (Ascii.eqb_spec c "/"); [contradiction|].
  change (String c (r ++ "/")) with (String c r ++ "/"). rewrite <- E, split_last_snoc. cbn. rewrite X. reflexivity.
Qed.
