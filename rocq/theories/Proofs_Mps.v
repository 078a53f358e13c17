(** Proofs for C114: reading and writing Biologic settings files. *)
From Verif Require Import Proofs_Diagnostic Proofs_Strings Proofs_Text Proofs_Arbin Proofs_M2A Py Model_Text Model_Arbin Model_M2B Model_Procedure Model_Mps Spec_Mps.

(** ** texts *)
Lemma occurs_iff p s : occurs p s <-> contains p s = true.
Proof. unfold occurs. rewrite contains_iff. reflexivity. Qed.
Lemma not_occurs p s : ~ occurs p s <-> contains p s = false.
Proof. rewrite occurs_iff. destruct (contains p s); split; congruence. Qed.
Lemma occurs_app_l p a b : occurs p a -> occurs p (a ++ b).
Proof. intros (x & y & ->). exists x, (y ++ b)%string. rewrite !app_assoc_s. reflexivity. Qed.
Lemma occurs_app_r p a b : occurs p b -> occurs p (a ++ b).
Proof. intros (x & y & ->). exists (a ++ x)%string, y. rewrite !app_assoc_s. reflexivity. Qed.
Lemma occurs_trans p q s : occurs p q -> occurs q s -> occurs p s.
Proof. intros H (x & y & ->). apply occurs_app_r, occurs_app_l. exact H. Qed.

Lemma lstrip_app_spaces s k : lstrip (s ++ spaces k) = (if all_space s then "" else lstrip s ++ spaces k)%string.
Proof.
  induction s as [|c s IH].
  - cbn. induction k as [|k IH]; [reflexivity|exact IH].
  - cbn [append lstrip all_space]. destruct (is_space c); [exact IH|reflexivity].
Qed.
Lemma all_space_spaces k : all_space (spaces k) = true.
Proof. induction k as [|k IH]; [reflexivity|exact IH]. Qed.
Lemma rstrip_app_spaces s k : rstrip (s ++ spaces k) = rstrip s.
Proof.
  induction s as [|c s IH].
  - cbn. apply rstrip_all, all_space_spaces.
  - cbn [append rstrip]. rewrite IH. reflexivity.
Qed.
Lemma lstrip_all s : all_space s = true -> lstrip s = ""%string.
Proof. induction s as [|c s IH]; intro H; [reflexivity|]. cbn in *. apply andb_prop in H. destruct H as [-> H]. auto. Qed.
Lemma strip_spaces s k : strip (s ++ spaces k) = strip s.
Proof.
  unfold strip. rewrite lstrip_app_spaces. destruct (all_space s) eqn:A.
  - rewrite (lstrip_all s A). reflexivity.
  - apply rstrip_app_spaces.
Qed.
Lemma strip_blank s : strip (String " " s) = strip s.
Proof. reflexivity. Qed.
Lemma strip_trimmed s : trimmed s -> strip s = s.
Proof.
  intros [->|[H1 H2]]; [reflexivity|]. unfold strip. destruct s as [|c s]; [reflexivity|].
  rewrite lstrip_stop by (apply (H1 c s); reflexivity).
  destruct (last_char (String c s)) as (a & d & E); [discriminate|]. rewrite E. rewrite (rstrip_stop a d ""); [reflexivity| |reflexivity]. exact (H2 a d E).
Qed.
Lemma ljust_padded w s : ljust w s = padded w s. Proof. reflexivity. Qed.
Lemma strip_padded w s : trimmed s -> strip (padded w s) = s.
Proof. intro T. unfold padded. rewrite strip_spaces. apply strip_trimmed. exact T. Qed.
Lemma spaces_length k : String.length (spaces k) = k.
Proof. induction k; simpl; congruence. Qed.
Lemma padded_length w s : (String.length s <= w)%nat -> String.length (padded w s) = w.
Proof. intro L. unfold padded. rewrite app_length_s, spaces_length. lia. Qed.

(** ** lines *)
Lemma rev_string_app a acc : rev_string (rev_string a acc) "" = (rev_string acc "" ++ a)%string.
Proof.
  revert acc. induction a as [|c a IH]; intro acc; cbn [rev_string].
  - rewrite app_nil_s. reflexivity.
  - rewrite IH. cbn [rev_string]. rewrite (rev_string_acc acc (String c "")), app_assoc_s. reflexivity.
Qed.
Definition eol_free (s : string) : Prop := char_free cr s /\ char_free nl s.
Lemma lines_skip l : forall rest acc, eol_free l -> lines_from (l ++ rest) false acc = lines_from rest false (rev_string l acc).
Proof.
  induction l as [|c l IH]; intros rest acc [A B]; [reflexivity|]. apply char_free_cons in A. apply char_free_cons in B. cbn [append lines_from].
  destruct (Ascii.eqb_spec c nl) as [->|_]; [tauto|]. destruct (Ascii.eqb_spec c cr) as [->|_]; [tauto|]. cbn [rev_string].
  apply IH. split; tauto.
Qed.
Lemma lines_join e ls : line_end e -> ls <> [] -> Forall eol_free ls -> mps_lines (join e ls) = ls.
Proof.
  intros He. unfold mps_lines.
  assert (G : forall ls, ls <> [] -> Forall eol_free ls -> lines_from (join e ls) false "" = ls /\ (e = String cr "" -> lines_from (join e ls) true "" = ls)).
  { clear ls. induction ls as [|l ls IH]; intros NE F; [congruence|]. inversion F as [|? ? Fl F']; subst.
    destruct ls as [|m ls].
    - cbn [join]. pose proof (lines_skip l "" "" Fl) as E. rewrite app_nil_s in E. split; [rewrite E; cbn; rewrite rev_string_app; reflexivity|].
      intros _. destruct l as [|c l]; [reflexivity|]. cbn [lines_from]. destruct Fl as [A B]. pose proof A as A'. pose proof B as B'. apply char_free_cons in A. apply char_free_cons in B.
      destruct (Ascii.eqb_spec c nl) as [->|_]; [tauto|]. destruct (Ascii.eqb_spec c cr) as [->|_]; [tauto|].
      pose proof (lines_skip l "" (String c "") (conj (proj2 A) (proj2 B))) as E2. rewrite app_nil_s in E2. rewrite E2. cbn. rewrite rev_string_app. reflexivity.
    - rewrite join_cons. destruct (IH ltac:(discriminate) F') as [I1 I2].
      assert (J : forall acc, lines_from (e ++ join e (m :: ls)) false acc = rev_string acc "" :: m :: ls).
      { intro acc. destruct He as [-> | [-> | ->]]; cbn -[join lines_from]; cbn [lines_from]; cbn -[join lines_from rev_string].
        - f_equal. exact I1.
        - f_equal. exact I1.
        - f_equal. apply I2. reflexivity. }
      split; [rewrite lines_skip by exact Fl; rewrite J, rev_string_app; reflexivity|].
      intros ->. destruct l as [|c l].
      + cbn [append lines_from]. cbn -[join lines_from rev_string]. f_equal. apply I2. reflexivity.
      + cbn [append lines_from]. destruct Fl as [A B]. apply char_free_cons in A. apply char_free_cons in B.
        destruct (Ascii.eqb_spec c nl) as [->|_]; [tauto|]. destruct (Ascii.eqb_spec c cr) as [->|_]; [tauto|].
        rewrite lines_skip by (split; tauto). rewrite J, rev_string_app. reflexivity. }
  intros NE F. apply G; assumption.
Qed.

(** ** cutting at the first separator *)
Lemma substring_skip a b : substring (String.length a) (String.length b) (a ++ b) = b.
Proof. induction a as [|c a IH]; cbn; [|exact IH]. induction b as [|c b IH]; cbn; [reflexivity|congruence]. Qed.
Lemma cut_at_first sep k : forall rest acc, ends_before k sep rest ->
  cut_at sep (k ++ sep ++ rest) acc = Some ((rev_string acc "" ++ k)%string, rest).
Proof.
  induction k as [|c k IH]; intros rest acc F.
  - rewrite app_nil_s. cbn [append]. assert (P : prefix sep (sep ++ rest) = true) by (apply prefix_iff; exists rest; reflexivity).
    assert (S : substring (String.length sep) (String.length (sep ++ rest) - String.length sep) (sep ++ rest) = rest).
    { rewrite app_length_s. replace (String.length sep + String.length rest - String.length sep)%nat with (String.length rest) by lia. apply substring_skip. }
    destruct (sep ++ rest)%string eqn:E; cbn [cut_at]; rewrite P, S; reflexivity.
  - cbn [append cut_at]. destruct (prefix sep (String c (k ++ sep ++ rest))) eqn:P.
    + apply prefix_iff in P. destruct P as [b P]. specialize (F ""%string b). cbn [append String.length] in F. specialize (F P). lia.
    + rewrite IH.
      * cbn [rev_string]. rewrite (rev_string_acc acc (String c "")), app_assoc_s. reflexivity.
      * intros a b E. specialize (F (String c a) b). cbn [append] in F. rewrite E in F. specialize (F eq_refl). cbn [String.length] in F. lia.
Qed.
Lemma cut_at_none sep s : forall acc, ~ occurs sep s -> cut_at sep s acc = None.
Proof.
  induction s as [|c s IH]; intros acc N; cbn [cut_at].
  - destruct (prefix sep "") eqn:P; [|reflexivity]. apply prefix_iff in P. destruct P as [r P]. exfalso. apply N. exists ""%string, r. exact P.
  - destruct (prefix sep (String c s)) eqn:P.
    + apply prefix_iff in P. destruct P as [r P]. exfalso. apply N. exists ""%string, r. exact P.
    + apply IH. intros (a & b & ->). apply N. exists (String c a), b. reflexivity.
Qed.

(** ** the header *)
Lemma line_text_no_T i p : occurs (String "T" p) ("line" ++ str_int (Z.of_nat i)) -> False.
Proof.
  intros (a & b & E). destruct (str_int_digits i) as (S & D & _).
  assert (C : char_free "T" ("line" ++ str_int (Z.of_nat i))).
  { apply char_free_app. split; [reflexivity|]. rewrite S. clear -D. induction D as [|d ds Hd D IH]; [reflexivity|]. cbn [digits_text]. apply char_free_cons. split; [|exact IH].
    unfold is_digit in Hd. do 10 (destruct d as [|d]; [discriminate|]). lia. }
  rewrite E in C. apply char_free_app in C. destruct C as [_ C]. cbn [append] in C. apply char_free_cons in C. tauto.
Qed.
Lemma header_entry i line k v : header_line i line k v -> ~ occurs "Technique" line -> meta_entry i line = Ok (k, v).
Proof.
  intros H N. unfold meta_entry, is_technique. apply not_occurs in N. rewrite N. inversion H as [|t NE NC|k' v' F NB NM1 NM2]; subst.
  - reflexivity.
  - apply not_occurs in NC. rewrite NC. destruct (String.eqb_spec k ""); [contradiction|reflexivity].
  - assert (C : contains ":" (k ++ " : " ++ v') = true). { apply occurs_iff. exists (k ++ " ")%string, (" " ++ v')%string. rewrite !app_assoc_s. reflexivity. }
    rewrite C. unfold split_once. rewrite cut_at_first by exact F. reflexivity.
Qed.
Lemma header_key i line k v : header_line i line k v -> ~ occurs "Technique" line -> contains "Technique_" k = false.
Proof.
  intros H N. apply not_occurs. intro O. assert (T : occurs "Technique" "Technique_") by (exists ""%string, "_"%string; reflexivity).
  inversion H; subst.
  - exact (line_text_no_T i _ O).
  - apply N. exact (occurs_trans _ _ _ T O).
  - apply N. apply occurs_app_l. exact (occurs_trans _ _ _ T O).
Qed.
Lemma header_entries i ls e : header_from i ls e -> Forall (fun l => ~ occurs "Technique" l) ls ->
  forall pre post, length pre = i -> mapM (fun i => meta_entry i (nth i (pre ++ ls ++ post) ""%string)) (seq i (length ls)) = Ok e.
Proof.
  intro H. induction H as [i|i line k v r e L H IH]; intros F pre post E; [reflexivity|]. inversion F as [|? ? N F']; subst. cbn [length seq mapM].
  rewrite app_nth2 by lia. rewrite Nat.sub_diag. cbn [app nth]. rewrite (header_entry _ _ _ _ L N). cbn [bind].
  specialize (IH F' (pre ++ [line]) post). rewrite <- app_assoc in IH. cbn [app] in IH. rewrite IH by (rewrite app_length; simpl; lia). reflexivity.
Qed.

(** ** dictionaries *)
Lemma ordered_dict_distinct l : NoDup (map fst l) -> ordered_dict l = l.
Proof.
  unfold ordered_dict. intro N.
  assert (G : forall (l d : list (string * val)), NoDup (map fst (d ++ l)) -> fold_left (fun d kv => sset d (fst kv) (snd kv)) l d = d ++ l).
  { clear. induction l as [|[k v] l IH]; intros d N; [rewrite app_nil_r; reflexivity|]. cbn [fold_left fst snd].
    assert (S : sset d k v = d ++ [(k, v)]).
    { apply Proofs_Arbin.sset_new. rewrite map_app in N. apply NoDup_remove_2 in N. rewrite in_app_iff in N. tauto. }
    rewrite S, IH; [rewrite <- app_assoc; reflexivity|]. rewrite <- app_assoc. exact N. }
  apply (G l []). exact N.
Qed.
(** ** where the technique starts *)
Lemma technique_lines_none i ls : Forall (fun l => ~ occurs "Technique" l) ls -> technique_lines i ls = [].
Proof.
  intro F. revert i. induction F as [|l ls N F IH]; intro i; [reflexivity|]. cbn. unfold is_technique. apply not_occurs in N. rewrite N. apply IH.
Qed.
Lemma technique_lines_app i a b : technique_lines i (a ++ b) = technique_lines i a ++ technique_lines (i + length a) b.
Proof.
  revert i. induction a as [|l a IH]; intro i; cbn [app technique_lines length]; [rewrite Nat.add_0_r; reflexivity|].
  rewrite IH, app_assoc. do 2 f_equal. lia.
Qed.
Lemma filter_all {A} (f : A -> bool) l : (forall x, In x l -> f x = true) -> filter f l = l.
Proof. intro H. induction l as [|x l IH]; [reflexivity|]. cbn. rewrite H by (left; reflexivity). f_equal. apply IH. intros y Hy. apply H. right. exact Hy. Qed.
Lemma filter_none {A} (f : A -> bool) l : (forall x, In x l -> f x = false) -> filter f l = [].
Proof. intro H. induction l as [|x l IH]; [reflexivity|]. cbn. rewrite H by (left; reflexivity). apply IH. intros y Hy. apply H. right. exact Hy. Qed.
Lemma kept_lines b n a : lines_to_parse n (b + 1 + n + a) [b] = Ok (seq 0 b ++ [b] ++ seq (b + 1 + n) a).
Proof.
  unfold lines_to_parse. cbn [last_error]. f_equal. rewrite !seq_app. cbn [seq]. rewrite !Nat.add_0_l, !filter_app, <- !app_assoc.
  rewrite (filter_all _ (seq 0 b)), (filter_none _ (seq (b + 1) n)), (filter_all _ (seq (b + 1 + n) a)), (filter_all _ [b]); [reflexivity| | | |];
    intros x Hx; [destruct Hx as [<-|[]]|apply in_seq in Hx..].
  - destruct (Nat.leb_spec (S b) b); [lia|reflexivity].
  - destruct (Nat.leb_spec (S b) x); [|reflexivity]. destruct (Nat.ltb_spec x (S b + n)); [lia|reflexivity].
  - destruct (Nat.leb_spec (S b) x); [|lia]. destruct (Nat.ltb_spec x (S b + n)); [reflexivity|lia].
  - destruct (Nat.leb_spec (S b) x); [lia|reflexivity].
Qed.

(** ** the table *)
Lemma concat_cons x l : String.concat "" (x :: l) = (x ++ String.concat "" l)%string.
Proof. destruct l; cbn; [rewrite app_nil_s; reflexivity|reflexivity]. Qed.
Lemma substring_prefix a b : substring 0 (String.length a) (a ++ b) = a.
Proof. induction a as [|c a IH]; cbn; [destruct b; reflexivity|congruence]. Qed.
Lemma substring_drop a n m b : substring (String.length a + n) m (a ++ b) = substring n m b.
Proof. induction a as [|c a IH]; cbn; [reflexivity|exact IH]. Qed.
Lemma cells_of_row w cells : Forall (fun x => trimmed x /\ (String.length x <= w)%nat) cells ->
  row_cells w (length cells) (String.concat "" (map (padded w) cells)) = cells.
Proof.
  intro F. unfold row_cells.
  assert (G : forall k cells, Forall (fun x => trimmed x /\ (String.length x <= w)%nat) cells -> forall pre, String.length pre = (k * w)%nat ->
    map (fun c => strip (substring (c * w) w (pre ++ String.concat "" (map (padded w) cells)))) (seq k (length cells)) = cells).
  { clear F cells. intros k cells F. revert k. induction F as [|x cells [T L] F IH]; intros k pre P; [reflexivity|]. cbn [length seq map]. rewrite concat_cons. f_equal.
    - rewrite <- P. rewrite <- (Nat.add_0_r (String.length pre)), substring_drop. rewrite <- (padded_length w x L) at 1. rewrite substring_prefix. apply strip_padded. exact T.
    - rewrite <- app_assoc_s. apply IH. rewrite app_length_s, P, padded_length by exact L. cbn. lia. }
  exact (G 0%nat cells F ""%string eq_refl).
Qed.
Lemma row_length w cells : Forall (fun x => (String.length x <= w)%nat) cells -> String.length (String.concat "" (map (padded w) cells)) = (length cells * w)%nat.
Proof. intro F. induction F as [|x l L F IH]; [reflexivity|]. cbn [map length]. rewrite concat_cons, app_length_s, IH, padded_length by exact L. cbn. lia. Qed.
Lemma max_length_const c l : l <> [] -> Forall (fun s => String.length s = c) l -> max_length l = c.
Proof.
  intros NE F. unfold max_length. destruct F as [|s l H F]; [congruence|]. cbn. rewrite H. clear NE H. induction F as [|t l H F IH]; cbn in *; [lia|rewrite H; lia].
Qed.
Lemma nth_default_map {A B} (f : A -> B) l i d e : (i < length l)%nat -> nth i (map f l) e = f (nth i l d).
Proof. intro H. rewrite (nth_indep _ e (f d)) by (rewrite map_length; exact H). apply map_nth. Qed.
Lemma list_by_index {A} (l : list A) d : map (fun i => nth i l d) (seq 0 (length l)) = l.
Proof.
  assert (G : forall l pre, map (fun i => nth i (pre ++ l) d) (seq (length pre) (length l)) = l).
  { clear. induction l as [|x l IH]; intro pre; [reflexivity|]. cbn [length seq map]. rewrite app_nth2 by lia. rewrite Nat.sub_diag. cbn [nth]. f_equal.
    specialize (IH (pre ++ [x])). rewrite <- app_assoc in IH. cbn [app] in IH. rewrite app_length in IH. cbn [length] in IH. rewrite Nat.add_1_r in IH. exact IH. }
  exact (G l []).
Qed.

Section File.
  Context {w : nat} {f : file} {eb ea : list (string * val)} (W : well_formed w f eb ea).
  Let names := f_names f.
  Let seqs := f_seqs f.
  Definition table : list (list string) := map (fun i => nth i names "" :: map (fun s => nth i s "") seqs)%string (seq 0 (length names)).
  Lemma cell_ok i s : (i < length names)%nat -> In s (names :: seqs) -> trimmed (nth i s ""%string) /\ (String.length (nth i s ""%string) <= w)%nat.
  Proof.
    intros Hi Hs. apply (wf_cells _ _ _ _ W). apply in_or_app. destruct Hs as [<-|Hs].
    - left. apply nth_In. exact Hi.
    - right. apply in_concat. exists s. split; [exact Hs|]. apply nth_In. rewrite (proj2 (wf_seqs _ _ _ _ W) s Hs). exact Hi.
  Qed.
  Lemma rows_are : rows_of w f = map (fun r => String.concat "" (map (padded w) r)) table.
  Proof. unfold rows_of, table, row_of. rewrite map_map. reflexivity. Qed.
  Lemma table_cells r : In r table -> Forall (fun x => trimmed x /\ (String.length x <= w)%nat) r /\ length r = S (length seqs).
  Proof.
    intro H. apply in_map_iff in H. destruct H as (i & <- & Hi). apply in_seq in Hi. split; [|cbn; rewrite map_length; reflexivity].
    constructor; [apply cell_ok; [lia|left; reflexivity]|]. apply Forall_forall. intros x Hx. apply in_map_iff in Hx. destruct Hx as (s & <- & Hs). apply cell_ok; [lia|right; exact Hs].
  Qed.
  Lemma rows_cols : (max_length (rows_of w f) / w)%nat = S (length seqs).
  Proof.
    pose proof (wf_width _ _ _ _ W) as Hw. rewrite (max_length_const (S (length seqs) * w)); [apply Nat.div_mul; lia| |].
    - rewrite rows_are. unfold table. destruct (wf_names _ _ _ _ W) as [NE _]. fold names in NE. destruct names; [congruence|discriminate].
    - rewrite rows_are. apply Forall_forall. intros x Hx. apply in_map_iff in Hx. destruct Hx as (r & <- & Hr). destruct (table_cells r Hr) as [F L]. rewrite row_length, L; [reflexivity|].
      eapply Forall_impl; [|exact F]. cbn. tauto.
  Qed.
  Lemma rows_table : map (row_cells w (S (length seqs))) (rows_of w f) = table.
  Proof.
    rewrite rows_are, map_map. rewrite <- (map_id table) at 2. apply map_ext_in. intros r Hr. destruct (table_cells r Hr) as [F L]. rewrite <- L. apply cells_of_row. exact F.
  Qed.
  Lemma column_0 : column 0 table = names.
  Proof. unfold column, table. rewrite map_map. cbn [nth]. apply list_by_index. Qed.
  Lemma column_S k s : nth_error seqs k = Some s -> column (S k) table = s.
  Proof.
    intro H. unfold column, table. rewrite map_map. cbn [nth].
    pose proof (proj2 (wf_seqs _ _ _ _ W) s (nth_error_In _ _ H)) as L. fold names in L. rewrite <- L.
    rewrite <- (list_by_index s ""%string) at 2. apply map_ext_in. intros i _.
    assert (K : (k < length seqs)%nat) by (apply nth_error_Some; congruence).
    rewrite (nth_default_map (fun s => nth i s ""%string) seqs k [] ""%string K). f_equal. apply nth_error_nth. exact H.
  Qed.
  Lemma step_dict k s : nth_error seqs k = Some s ->
    VDict (ordered_dict (map (fun hv => (fst hv, VText (snd hv))) (combine (column 0 table) (column (S k) table)))) = step_of names (map VText s).
  Proof.
    intro H. rewrite column_0, (column_S k s H). unfold step_of. f_equal. pose proof (proj2 (wf_seqs _ _ _ _ W) s (nth_error_In _ _ H)) as L. fold names in L.
    destruct (wf_names _ _ _ _ W) as [_ ND]. fold names in ND. rewrite ordered_dict_distinct.
    - clear -L. revert s L. generalize names. intro l. induction l as [|n l IH]; intros [|x s] L; try discriminate; [reflexivity|]. cbn. f_equal. apply IH. injection L. auto.
    - rewrite map_map. cbn [fst]. assert (E : map fst (combine names s) = names). { clear -L. revert s L. generalize names. intro l. induction l as [|n l IH]; intros [|x s] L; try discriminate; [reflexivity|]. cbn. f_equal. apply IH. injection L. auto. }
      change (NoDup (map fst (combine names s))). rewrite E. exact ND.
  Qed.

  Definition with_steps (done : list (string * val)) : val :=
    VDict [("Metadata", VDict (eb ++ ("Technique_" ++ f_num f, VText (f_num f)) :: ea));
           ("Technique", VDict [(f_num f, VDict (("Type", VText (f_kind f)) :: match done with [] => [] | _ => [("Step", VDict done)] end))])]%string.
  Lemma num_no_dot : char_free "." (f_num f).
  Proof. destruct (wf_num _ _ _ _ W) as (_ & _ & N). apply not_occurs in N. exact N. Qed.
  Lemma step_path k : str_split "." ("Technique." ++ f_num f ++ ".Step." ++ str_int (Z.of_nat k)) = ["Technique"; f_num f; "Step"; str_int (Z.of_nat k)]%string.
  Proof.
    change ("Technique." ++ f_num f ++ ".Step." ++ str_int (Z.of_nat k))%string with ("Technique" ++ String "." (f_num f ++ String "." ("Step" ++ String "." (str_int (Z.of_nat k)))))%string.
    assert (A : char_free "." (str_int (Z.of_nat k))).
    { destruct (str_int_digits k) as (S & D & _). rewrite S. clear. destruct (digits_of_spec (Z.of_nat k)) as (_ & D & _); [lia|].
      induction D as [|d ds Hd D IH]; [reflexivity|]. cbn [digits_text]. apply char_free_cons. split; [|exact IH]. unfold is_digit in Hd. do 10 (destruct d as [|d]; [discriminate|]). lia. }
    rewrite !str_split_char; [|reflexivity|exact num_no_dot|reflexivity]. rewrite str_split_none by exact A. reflexivity.
  Qed.
  Lemma store_one done k x : ~ In (str_int (Z.of_nat k)) (map fst done) ->
    vset (str_split "." ("Technique." ++ f_num f ++ ".Step." ++ str_int (Z.of_nat k))) x (with_steps done) = Ok (with_steps (done ++ [(str_int (Z.of_nat k), x)])).
  Proof.
    intro N. rewrite step_path. unfold with_steps. destruct done as [|p done]; cbn -[append str_int].
    - rewrite !String.eqb_refl. reflexivity.
    - rewrite !String.eqb_refl. cbn -[append str_int d_set d_get sset sget]. unfold sset at 2. unfold sget at 1. cbn -[append str_int sset]. 
      rewrite (Proofs_Arbin.sset_new _ _ _ N). reflexivity.
  Qed.
  Lemma steps_from_keys k l : map fst (steps_from k names l) = map (fun i => str_int (Z.of_nat i)) (seq k (length l)).
  Proof. revert k. induction l as [|s l IH]; intro k; [reflexivity|]. cbn. f_equal. apply IH. Qed.
  Lemma steps_from_app k a b : steps_from k names (a ++ b) = steps_from k names a ++ steps_from (k + length a) names b.
  Proof. revert k. induction a as [|s a IH]; intro k; cbn [app steps_from length]; [rewrite Nat.add_0_r; reflexivity|]. rewrite IH. cbn. do 3 f_equal. lia. Qed.
  Lemma store_all pre post : seqs = pre ++ post ->
    store_steps (f_num f) table (seq (S (length pre)) (length post)) (with_steps (steps_from 1 names (texts pre))) = Ok (with_steps (steps_from 1 names (texts seqs))).
  Proof.
    revert pre. induction post as [|s post IH]; intros pre E.
    - rewrite app_nil_r in E. rewrite E. reflexivity.
    - cbn [length seq store_steps]. assert (N : nth_error seqs (length pre) = Some s) by (rewrite E, nth_error_app2, Nat.sub_diag by lia; reflexivity).
      rewrite (step_dict _ _ N). rewrite store_one.
      + cbn [bind]. specialize (IH (pre ++ [s])). rewrite <- app_assoc in IH. specialize (IH E). rewrite app_length in IH. cbn [length] in IH. rewrite Nat.add_1_r in IH.
        unfold texts in IH at 1. rewrite map_app, steps_from_app in IH. rewrite map_length in IH. exact IH.
      + rewrite steps_from_keys. intro H. apply in_map_iff in H. destruct H as (i & Hs & Hi). apply str_int_inj in Hs; [|lia|lia]. apply in_seq in Hi. unfold texts in Hi. rewrite map_length in Hi. lia.
  Qed.
  Lemma type_path : str_split "." ("Technique." ++ f_num f ++ ".Type") = ["Technique"; f_num f; "Type"]%string.
  Proof.
    change ("Technique." ++ f_num f ++ ".Type")%string with ("Technique" ++ String "." (f_num f ++ String "." "Type"))%string.
    rewrite !str_split_char; [|exact num_no_dot|reflexivity]. reflexivity.
  Qed.
  Lemma technique_line_num : technique_num ("Technique : " ++ f_num f) = f_num f.
  Proof.
    unfold technique_num. change ("Technique : " ++ f_num f)%string with ("Technique " ++ String ":" (String " " (f_num f)))%string.
    destruct (wf_num _ _ _ _ W) as (T & N & _). apply not_occurs in N. rewrite str_split_char by reflexivity. rewrite str_split_none by (apply char_free_cons; split; [discriminate|exact N]).
    cbn [last_piece last]. rewrite strip_blank. apply strip_trimmed. exact T.
  Qed.
  Lemma technique_entry i : meta_entry i ("Technique : " ++ f_num f) = Ok ("Technique_" ++ f_num f, VText (f_num f))%string.
  Proof.
    destruct (wf_num _ _ _ _ W) as (T & _ & _). unfold meta_entry. assert (C : contains ":" ("Technique : " ++ f_num f) = true) by reflexivity. rewrite C.
    assert (C2 : is_technique ("Technique : " ++ f_num f) = true) by reflexivity. rewrite C2.
    assert (S1 : split_once " : " ("Technique : " ++ f_num f) = ["Technique"; f_num f]%string).
    { unfold split_once. rewrite (cut_at_first " : " "Technique" (f_num f)); [reflexivity|]. intros a b E. do 9 (destruct a as [|? a]; [discriminate E|injection E as <- E]). cbn. lia. }
    assert (S2 : split_once ":" ("Technique : " ++ f_num f) = ["Technique "; " " ++ f_num f]%string).
    { unfold split_once. rewrite (cut_at_first ":" "Technique " (" " ++ f_num f)); [reflexivity|]. intros a b E. do 10 (destruct a as [|? a]; [discriminate E|injection E as <- E]). cbn. lia. }
    rewrite S1, S2. cbn [last_piece last append]. rewrite strip_blank, strip_trimmed by exact T. reflexivity.
  Qed.
  Lemma lines_free : Forall eol_free (lines_of w f).
  Proof. apply Forall_forall. intros l Hl. destruct (wf_lines _ _ _ _ W l Hl) as [A B]. apply not_occurs in A. apply not_occurs in B. split; assumption. Qed.
  Lemma rows_length : length (rows_of w f) = length names.
  Proof. unfold rows_of. rewrite map_length, seq_length. reflexivity. Qed.
  Lemma no_technique : Forall (fun l => ~ occurs "Technique" l) (f_before f) /\ Forall (fun l => ~ occurs "Technique" l) (f_kind f :: rows_of w f ++ f_after f).
  Proof. apply Forall_app. apply Forall_forall. exact (wf_one_technique _ _ _ _ W). Qed.

  Theorem file_read e : line_end e -> settings_of w (S (length names)) (join e (lines_of w f)) = Ok (settings eb ea (f_num f) (f_kind f) names (texts seqs)).
  Proof.
    intro He. unfold settings_of. assert (NE : lines_of w f <> []) by (unfold lines_of; destruct (f_before f); discriminate).
    rewrite (lines_join e _ He NE lines_free). destruct no_technique as [N1 N2].
    assert (T : technique_lines 0 (lines_of w f) = [length (f_before f)]).
    { unfold lines_of. rewrite technique_lines_app, (technique_lines_none 0) by exact N1. cbn [app]. change (f_kind f :: rows_of w f ++ f_after f) with ([f_kind f] ++ rows_of w f ++ f_after f).
      cbn [technique_lines]. assert (C : is_technique ("Technique : " ++ f_num f) = true) by reflexivity. rewrite C. cbn [app]. f_equal. apply technique_lines_none. exact N2. }
    rewrite T. assert (L : length (lines_of w f) = (length (f_before f) + 1 + S (length names) + length (f_after f))%nat).
    { unfold lines_of. rewrite !app_length, rows_length. cbn. lia. }
    rewrite L, kept_lines. cbn [bind].
    assert (M : mapM (fun i => meta_entry i (nth i (lines_of w f) ""%string)) (seq 0 (length (f_before f)) ++ [length (f_before f)] ++ seq (length (f_before f) + 1 + S (length names)) (length (f_after f)))
                = Ok (eb ++ ("Technique_" ++ f_num f, VText (f_num f))%string :: ea)).
    { assert (MA : forall (g : nat -> result (string * val)) a b x y, mapM g a = Ok x -> mapM g b = Ok y -> mapM g (a ++ b) = Ok (x ++ y)).
      { clear. intros g a b x. revert x. induction a as [|n a IH]; intros x y H1 H2; cbn in *; [injection H1 as <-; exact H2|].
        destruct (g n); cbn in *; [|discriminate]. destruct (mapM g a) as [l|]; cbn in *; [|discriminate]. injection H1 as <-. rewrite (IH l y eq_refl H2). reflexivity. }
      apply MA.
      - unfold lines_of. exact (header_entries 0 _ _ (wf_before _ _ _ _ W) N1 [] _ eq_refl).
      - apply (MA _ _ _ [("Technique_" ++ f_num f, VText (f_num f))%string]).
        + cbn [mapM]. unfold lines_of. rewrite app_nth2 by lia. rewrite Nat.sub_diag. cbn [app nth]. rewrite technique_entry. reflexivity.
        + pose proof (header_entries _ _ _ (wf_after _ _ _ _ W)) as HA.
          assert (NA : Forall (fun l => ~ occurs "Technique" l) (f_after f)). { inversion N2 as [|? ? _ N3]; subst. apply Forall_app in N3. tauto. }
          specialize (HA NA (f_before f ++ ["Technique : " ++ f_num f; f_kind f]%string ++ rows_of w f) []). rewrite app_nil_r, <- !app_assoc in HA.
          replace (length (f_before f) + 1 + S (length names))%nat with (length (f_before f) + 2 + length (f_names f))%nat by (unfold names; lia).
          apply HA. rewrite !app_length, rows_length. cbn. unfold names. lia. }
    rewrite M. cbn [bind store_techniques]. rewrite (ordered_dict_distinct _ (wf_keys _ _ _ _ W)). unfold store_technique.
    assert (N0 : nth (length (f_before f)) (lines_of w f) ""%string = ("Technique : " ++ f_num f)%string). { unfold lines_of. rewrite app_nth2, Nat.sub_diag by lia. reflexivity. }
    assert (N1' : nth_error (lines_of w f) (S (length (f_before f))) = Some (f_kind f)).
    { unfold lines_of. rewrite nth_error_app2 by lia. replace (S (length (f_before f)) - length (f_before f))%nat with 1%nat by lia. reflexivity. }
    rewrite N0, N1', technique_line_num, type_path. cbn [vset bind]. cbn -[append technique_num store_steps max_length firstn skipn lines_of].
    assert (R : firstn (length names - 0) (skipn (S (S (length (f_before f)))) (lines_of w f)) = rows_of w f).
    { unfold lines_of. rewrite skipn_app. rewrite skipn_all2 by lia. replace (S (S (length (f_before f))) - length (f_before f))%nat with 2%nat by lia. cbn [app skipn].
      rewrite Nat.sub_0_r, <- rows_length, firstn_app, Nat.sub_diag, firstn_all. cbn. apply app_nil_r. }
    rewrite R. destruct (rows_of w f) as [|r0 rows] eqn:ER.
    { exfalso. pose proof rows_length as RL. rewrite ER in RL. destruct (wf_names _ _ _ _ W) as [X _]. fold names in X. destruct names; [congruence|discriminate]. }
    rewrite <- ER. pose proof (wf_width _ _ _ _ W) as Hw. destruct (Nat.eqb_spec w 0) as [|_]; [lia|]. rewrite rows_cols. cbn [Nat.eqb Nat.sub]. rewrite Nat.sub_0_r. change (row_cells w (S (length seqs)) r0 :: map (row_cells w (S (length seqs))) rows) with (map (row_cells w (S (length seqs))) (r0 :: rows)). rewrite <- ER, rows_table.
    pose proof (store_all [] seqs eq_refl) as SA. cbn [length texts map steps_from] in SA. unfold with_steps at 1 in SA. rewrite SA. cbn [bind].
    unfold with_steps, settings. pose proof (proj1 (wf_seqs _ _ _ _ W)) as SN. fold seqs in SN. destruct seqs as [|s r]; [congruence|]. reflexivity.
  Qed.
End File.

(** ** writing *)
Lemma mapM_total {A B} (g : A -> result B) (h : A -> B) l : (forall x, In x l -> g x = Ok (h x)) -> mapM g l = Ok (map h l).
Proof. intro H. induction l as [|x l IH]; [reflexivity|]. cbn. rewrite H by (left; reflexivity). rewrite IH by (intros y Hy; apply H; right; exact Hy). reflexivity. Qed.
Lemma split_head v : exists h r, str_split "." v = h :: r /\ (v = h \/ exists rest, v = (h ++ "." ++ rest)%string).
Proof.
  pose proof (str_split_nonempty "." v) as NE. pose proof (join_split "." v ltac:(discriminate)) as J. destruct (str_split "." v) as [|h r] eqn:E; [congruence|]. exists h, r. split; [reflexivity|].
  rewrite <- J. destruct r as [|x r]; [left; reflexivity|right]. eexists. reflexivity.
Qed.
Lemma steps_keys names k l : map fst (steps_from k names l) = map (fun i => str_int (Z.of_nat i)) (seq k (length l)).
Proof. revert k. induction l as [|s l IH]; intro k; [reflexivity|]. cbn. f_equal. apply IH. Qed.
Lemma steps_in names k l j s : nth_error l j = Some s -> In (str_int (Z.of_nat (k + j)), step_of names s) (steps_from k names l).
Proof.
  revert k l. induction j as [|j IH]; intros k [|x l] H; try discriminate; cbn in H.
  - injection H as ->. left. rewrite Nat.add_0_r. reflexivity.
  - right. replace (k + S j)%nat with (S k + j)%nat by lia. apply IH. exact H.
Qed.
Lemma steps_nodup names k l : NoDup (map fst (steps_from k names l)).
Proof.
  rewrite steps_keys. apply FinFun.Injective_map_NoDup; [|apply seq_NoDup]. intros a b H. apply str_int_inj in H; lia.
Qed.
Lemma step_item names seqs j s : nth_error seqs j = Some s -> sget (steps_from 1 names seqs) (str_int (Z.of_nat (S j))) = Some (step_of names s).
Proof. intro H. apply (sget_in _ _ _ (steps_nodup names 1 seqs)). exact (steps_in names 1 seqs j s H). Qed.
Section Write.
  Variable show : val -> string.
  Variables (w : nat) (before after : list (string * val)) (num kind : string) (names : list string) (seqs : list (list val)).
  Variables (fb fa : list string) (ib ia : nat).
  Hypothesis HB : header_from ib fb before.
  Hypothesis HA : header_from ia fa after.
  Hypothesis NB : forall l, In l (fb ++ fa) -> ~ occurs "Technique" l.
  Hypothesis HK : NoDup (map fst (before ++ ("Technique_" ++ num, VText num)%string :: after)).
  Hypothesis HN : NoDup names.
  Hypothesis HS : seqs <> [] /\ forall s, In s seqs -> length s = length names.
  Let data := settings before after num kind names seqs.
  Definition printed : list (list string) := map (map (py_str show)) seqs.
  Definition printed_file : file := {| f_before := fb; f_num := num; f_kind := kind; f_names := names; f_seqs := printed; f_after := fa |}.

  Lemma unset_harmless v : ~ occurs "Technique" v -> v <> "Metadata"%string -> (forall rest, v <> ("Metadata." ++ rest)%string) -> vunset (str_split "." v) data = data.
  Proof.
    intros T M1 M2. destruct (split_head v) as (h & r & -> & Hv).
    assert (E1 : (h =? "Metadata")%string = false). { apply String.eqb_neq. intros ->. destruct Hv as [->|[rest ->]]; [congruence|]. exact (M2 rest eq_refl). }
    assert (E2 : (h =? "Technique")%string = false). { apply String.eqb_neq. intros ->. apply T. destruct Hv as [->|[rest ->]]; [exists ""%string, ""%string; reflexivity|exists ""%string, ("." ++ rest)%string; reflexivity]. }
    unfold data, settings. destruct r as [|x r]; cbn -[append]; rewrite E1, E2; reflexivity.
  Qed.
  Lemma header_blocks i ls e rest : header_from i ls e -> Forall (fun l => ~ occurs "Technique" l) ls ->
    (forall k v, In (k, v) e -> item ["Metadata"; k]%string data = Ok v) ->
    mps_blocks show w (map fst e ++ rest) data = (let! more := mps_blocks show w rest data in Ok (ls ++ more)).
  Proof.
    intro H. induction H as [i|i line k v ls e L H IH]; intros F G.
    - cbn. destruct (mps_blocks show w rest data); reflexivity.
    - inversion F as [|? ? N F']; subst. cbn [map fst app mps_blocks]. rewrite (header_key _ _ _ _ L N). unfold meta_line. rewrite (G k v (or_introl eq_refl)). cbn [bind].
      assert (U : match v with VNone => Ok (k, data) | VText t => Ok ((if String.eqb t "blank" then "" else k ++ " : " ++ t)%string, vunset (str_split "." t) data) | _ => Err TypeError end = Ok (line, data)).
      { inversion L as [|t NE NC|k' v' E NBl M1 M2]; subst.
        - assert (S : str_split "." "blank" = ["blank"%string]) by (apply str_split_none; reflexivity). rewrite S. reflexivity.
        - reflexivity.
        - destruct (String.eqb_spec v' "blank") as [|_]; [contradiction|]. rewrite unset_harmless; [reflexivity| |exact M1|exact M2].
          intro O. apply N. apply occurs_app_r, occurs_app_r. exact O. }
      rewrite U. cbn [bind]. rewrite IH; [|exact F'|intros k0 v0 H0; apply G; right; exact H0]. destruct (mps_blocks show w rest data); reflexivity.
  Qed.
  Lemma meta_item k v : In (k, v) (before ++ ("Technique_" ++ num, VText num)%string :: after) -> item ["Metadata"; k]%string data = Ok v.
  Proof. intro H. apply (sget_in _ _ _ HK) in H. unfold item, data, settings. unfold sget at 1. cbn [d_get String.eqb Ascii.eqb Bool.eqb]. rewrite H. reflexivity. Qed.
  Lemma cell_item j s i : nth_error seqs j = Some s -> (i < length names)%nat ->
    item ["Technique"; num; "Step"; str_int (Z.of_nat (S j)); nth i names ""]%string data = Ok (nth i s VNone).
  Proof.
    intros H Hi. pose proof (proj2 HS s (nth_error_In _ _ H)) as L.
    assert (C : sget (combine names s) (nth i names ""%string) = Some (nth i s VNone)).
    { apply sget_in.
      - assert (E : map fst (combine names s) = names). { clear -L. revert s L. induction names as [|n l IH]; intros [|x s] L; try discriminate; [reflexivity|]. cbn. f_equal. apply IH. injection L. auto. }
        rewrite E. exact HN.
      - rewrite <- combine_nth by (symmetry; exact L). apply nth_In. rewrite combine_length, L. lia. }
    pose proof (step_item names seqs j s H) as S. unfold data, settings. unfold item. unfold sget at 1. cbn [d_get String.eqb Ascii.eqb Bool.eqb].
    unfold sget at 1. cbn [d_get]. rewrite String.eqb_refl. unfold sget at 1. cbn [d_get String.eqb Ascii.eqb Bool.eqb]. rewrite S. unfold step_of. rewrite C. reflexivity.
  Qed.
  Lemma row_written i : (i < length names)%nat ->
    table_row show w data num (nth i names ""%string) (map fst (steps_from 1 names seqs)) = Ok (row_of w (nth i names ""%string) (map (fun s => nth i s ""%string) printed)).
  Proof.
    intro Hi. unfold table_row.
    assert (M : mapM (fun s => let! v := item ["Technique"%string; num; "Step"%string; s; nth i names ""%string] data in Ok (ljust w (py_str show v))) (map fst (steps_from 1 names seqs))
                = Ok (map (padded w) (map (fun s => nth i s ""%string) printed))).
    { rewrite steps_keys. assert (G : forall post pre, seqs = pre ++ post ->
        mapM (fun s => let! v := item ["Technique"%string; num; "Step"%string; s; nth i names ""%string] data in Ok (ljust w (py_str show v))) (map (fun i => str_int (Z.of_nat i)) (seq (S (length pre)) (length post)))
        = Ok (map (padded w) (map (fun s => nth i s ""%string) (map (map (py_str show)) post)))).
      { induction post as [|s post IH]; intros pre E; [reflexivity|].
        assert (N : nth_error seqs (length pre) = Some s) by (rewrite E, nth_error_app2, Nat.sub_diag by lia; reflexivity).
        cbn [length seq map mapM]. rewrite (cell_item _ s i N Hi). cbn [bind].
        specialize (IH (pre ++ [s])). rewrite <- app_assoc in IH. specialize (IH E). rewrite app_length in IH. cbn [length] in IH. rewrite Nat.add_1_r in IH. rewrite IH. cbn [bind].
        pose proof (proj2 HS s (nth_error_In _ _ N)) as L. rewrite (nth_default_map (py_str show) s i VNone ""%string) by lia. reflexivity. }
      exact (G seqs [] eq_refl). }
    rewrite M. cbn [bind]. unfold row_of. cbn [map]. rewrite concat_cons. reflexivity.
  Qed.
  Lemma block_written : technique_block show w data ("Technique_" ++ num) = Ok (["Technique : " ++ num; kind]%string ++ rows_of w printed_file).
  Proof.
    unfold technique_block. rewrite (meta_item _ (VText num)) by (apply in_or_app; right; left; reflexivity). cbn [bind as_text].
    assert (I1 : item ["Technique"; num; "Type"]%string data = Ok (VText kind)). { cbn -[append]. rewrite String.eqb_refl. reflexivity. }
    assert (I2 : item ["Technique"; num; "Step"]%string data = Ok (VDict (steps_from 1 names seqs))). { cbn -[append]. rewrite String.eqb_refl. reflexivity. }
    destruct HS as [NE HL]. assert (X : exists s0, nth_error seqs 0 = Some s0) by (clear -NE; destruct seqs as [|s0 r]; [congruence|exists s0; reflexivity]). destruct X as [s0 ES].
    assert (I3 : item ["Technique"; num; "Step"; "1"]%string data = Ok (step_of names s0)).
    { pose proof (step_item names seqs 0 s0 ES) as S. unfold data, settings. unfold item. unfold sget at 1. cbn [d_get String.eqb Ascii.eqb Bool.eqb].
      unfold sget at 1. cbn [d_get]. rewrite String.eqb_refl. unfold sget at 1. cbn [d_get String.eqb Ascii.eqb Bool.eqb]. change "1"%string with (str_int (Z.of_nat 1)). rewrite S. reflexivity. }
    rewrite I1. cbn [bind as_text]. rewrite I3. cbn [bind keys_of step_of]. rewrite I2. cbn [bind keys_of].
    assert (EN : map fst (combine names s0) = map (fun i => nth i names ""%string) (seq 0 (length names))).
    { rewrite list_by_index. pose proof (HL s0 (nth_error_In _ _ ES)) as L. clear -L. revert s0 L. induction names as [|n l IH]; intros [|x s] L; try discriminate; [reflexivity|]. cbn. f_equal. apply IH. injection L. auto. }
    rewrite EN. assert (MM : mapM (fun key => table_row show w data num key (map fst (steps_from 1 names seqs))) (map (fun i => nth i names ""%string) (seq 0 (length names))) = Ok (rows_of w printed_file)).
    { assert (G : forall l, (forall i, In i l -> (i < length names)%nat) -> mapM (fun key => table_row show w data num key (map fst (steps_from 1 names seqs))) (map (fun i => nth i names ""%string) l)
        = Ok (map (fun i => row_of w (nth i names ""%string) (map (fun s => nth i s ""%string) printed)) l)).
      { induction l as [|i l IH]; intro B; [reflexivity|]. cbn [map mapM]. rewrite row_written by (apply B; left; reflexivity). cbn [bind]. rewrite IH by (intros j Hj; apply B; right; exact Hj). reflexivity. }
      apply G. intros i Hi. apply in_seq in Hi. lia. }
    rewrite MM. cbn [bind]. change ("Technique_" ++ num)%string with ("Technique" ++ String "_" num)%string. rewrite str_split_char by reflexivity. reflexivity.
  Qed.
  Theorem file_written : settings_text show w data = Ok (join crlf (lines_of w printed_file)).
  Proof.
    assert (F : Forall (fun l => ~ occurs "Technique" l) fb /\ Forall (fun l => ~ occurs "Technique" l) fa) by (apply Forall_app, Forall_forall; exact NB). destruct F as [F1 F2].
    unfold settings_text. assert (I : item ["Metadata"%string] data = Ok (VDict (before ++ ("Technique_" ++ num, VText num)%string :: after))) by reflexivity.
    rewrite I. cbn [bind keys_of]. rewrite map_app. rewrite (header_blocks ib fb before _ HB F1) by (intros k v Hk; apply meta_item; apply in_or_app; left; exact Hk).
    cbn [map fst mps_blocks]. assert (C : contains "Technique_" ("Technique_" ++ num) = true) by (apply contains_iff; exists ""%string, num; reflexivity). rewrite C, block_written. cbn [bind].
    rewrite <- (app_nil_r (map fst after)). rewrite (header_blocks ia fa after [] HA F2) by (intros k v Hk; apply meta_item; apply in_or_app; right; right; exact Hk).
    cbn [mps_blocks bind]. rewrite app_nil_r. unfold lines_of. cbn [f_before f_num f_kind f_after printed_file]. rewrite <- app_assoc. reflexivity.
  Qed.
End Write.

(** ** deciding whether a file is well formed *)
Lemma cut_at_sound sep s : forall acc k v, cut_at sep s acc = Some (k, v) -> exists k', k = (rev_string acc "" ++ k')%string /\ s = (k' ++ sep ++ v)%string /\ ends_before k' sep v.
Proof.
  assert (P : forall s, prefix sep s = true -> s = (sep ++ substring (String.length sep) (String.length s - String.length sep) s)%string).
  { intros t H. apply prefix_iff in H. destruct H as [r ->]. f_equal. rewrite app_length_s. replace (String.length sep + String.length r - String.length sep)%nat with (String.length r) by lia. symmetry. apply substring_skip. }
  induction s as [|c s IH]; intros acc k v H; cbn [cut_at] in H.
  - destruct (prefix sep "") eqn:E; [|discriminate]. injection H as <- <-. exists ""%string. rewrite app_nil_s. split; [reflexivity|]. split; [exact (P _ E)|]. intros a b _. cbn. lia.
  - destruct (prefix sep (String c s)) eqn:E.
    + injection H as <- <-. exists ""%string. rewrite app_nil_s. split; [reflexivity|]. split; [exact (P _ E)|]. intros a b _. cbn. lia.
    + destruct (IH _ _ _ H) as (k' & -> & -> & F). exists (String c k'). split; [cbn [rev_string]; rewrite (rev_string_acc acc (String c "")), app_assoc_s; reflexivity|]. split; [reflexivity|].
      intros a b X. destruct a as [|d a].
      * exfalso. assert (C : prefix sep (String c (k' ++ sep ++ v)) = true) by (apply prefix_iff; exists b; exact X). congruence.
      * cbn [append] in X. injection X as <- X. cbn [String.length]. apply le_n_S. exact (F a b X).
Qed.
Definition check_line (i : nat) (line : string) : option (string * val) :=
  if String.eqb line "" then Some ("line" ++ str_int (Z.of_nat i), VText "blank")%string
  else if negb (contains ":" line) then Some (line, VNone)
  else match cut_at " : " line "" with
       | Some (k, v) => if String.eqb v "blank" || String.eqb v "Metadata" || prefix "Metadata." v then None else Some (k, VText v)
       | None => None
       end.
Fixpoint check_lines (i : nat) (l : list string) : option (list (string * val)) :=
  match l with
  | [] => Some []
  | x :: l => match check_line i x, check_lines (S i) l with Some e, Some r => Some (e :: r) | _, _ => None end
  end.
Lemma check_line_sound i line k v : check_line i line = Some (k, v) -> header_line i line k v.
Proof.
  unfold check_line. destruct (String.eqb_spec line "") as [->|NE]; [intro H; injection H as <- <-; constructor|]. destruct (contains ":" line) eqn:C; cbn [negb].
  - destruct (cut_at " : " line "") as [[a b]|] eqn:E; [|discriminate]. destruct (cut_at_sound _ _ _ _ _ E) as (k' & -> & -> & F). cbn [rev_string append].
    destruct (String.eqb_spec b "blank"); [discriminate|]. destruct (String.eqb_spec b "Metadata"); [discriminate|]. destruct (prefix "Metadata." b) eqn:P; [discriminate|]. cbn. intro H. injection H as <- <-.
    constructor; try assumption. intros rest ->. assert (X : prefix "Metadata." ("Metadata." ++ rest) = true) by (apply prefix_iff; eexists; reflexivity). congruence.
  - intro H. injection H as <- <-. constructor; [exact NE|]. apply not_occurs. exact C.
Qed.
Lemma check_lines_sound l : forall i e, check_lines i l = Some e -> header_from i l e.
Proof.
  induction l as [|x l IH]; intros i e H; cbn in H; [injection H as <-; constructor|]. destruct (check_line i x) as [[k v]|] eqn:E; [|discriminate]. destruct (check_lines (S i) l) as [r|] eqn:R; [|discriminate].
  injection H as <-. constructor; [apply check_line_sound; exact E|apply IH; exact R].
Qed.
Fixpoint last_ok (s : string) : bool := match s with EmptyString => true | String c r => match r with EmptyString => negb (is_space c) | _ => last_ok r end end.
Definition trimmedb (s : string) : bool := match s with EmptyString => true | String c _ => negb (is_space c) && last_ok s end.
Lemma trimmedb_sound s : trimmedb s = true -> trimmed s.
Proof.
  destruct s as [|c s]; [left; reflexivity|]. cbn [trimmedb]. intro H. apply andb_prop in H. destruct H as [A B]. right. split; [intros d r E; injection E as <- <-; destruct (is_space c); [discriminate|reflexivity]|].
  intros a d E. rewrite E in B. clear -B. induction a as [|x a IH]; [cbn in B; destruct (is_space d); [discriminate|reflexivity]|]. apply IH. cbn in B. destruct (a ++ String d "")%string eqn:X; [destruct a; discriminate X|exact B].
Qed.
Fixpoint distinctb (l : list string) : bool := match l with [] => true | x :: l => negb (str_in x l) && distinctb l end.
Lemma distinctb_sound l : distinctb l = true -> NoDup l.
Proof.
  induction l as [|x l IH]; intro H; [constructor|]. cbn in H. apply andb_prop in H. destruct H as [A B]. constructor; [|apply IH; exact B].
  intro I. unfold str_in in A. assert (X : existsb (String.eqb x) l = true) by (apply existsb_exists; exists x; split; [exact I|apply String.eqb_refl]). rewrite X in A. discriminate.
Qed.
Definition check (w : nat) (f : file) (before after : list (string * val)) : bool :=
  negb (w =? 0)%nat && forallb (fun l => negb (contains "Technique" l)) (f_before f ++ f_kind f :: rows_of w f ++ f_after f)
  && forallb (fun l => negb (contains (String cr "") l) && negb (contains (String nl "") l)) (lines_of w f)
  && (trimmedb (f_num f) && negb (contains ":" (f_num f)) && negb (contains "." (f_num f)))
  && distinctb (map fst (before ++ ("Technique_" ++ f_num f, VText (f_num f))%string :: after))
  && (negb (length (f_names f) =? 0)%nat && distinctb (f_names f)) && (negb (length (f_seqs f) =? 0)%nat && forallb (fun s => (length s =? length (f_names f))%nat) (f_seqs f))
  && forallb (fun x => trimmedb x && (String.length x <=? w)%nat) (f_names f ++ List.concat (f_seqs f)).
Lemma check_sound w f before after : check_lines 0 (f_before f) = Some before -> check_lines (length (f_before f) + 2 + length (f_names f)) (f_after f) = Some after ->
  check w f before after = true -> well_formed w f before after.
Proof.
  intros B A C. unfold check in C. repeat (apply andb_prop in C; destruct C as [C ?]). repeat match goal with H : _ && _ = true |- _ => apply andb_prop in H; destruct H end.
  repeat match goal with H : forallb _ _ = true |- _ => rewrite forallb_forall in H end.
  assert (NT : forall b, negb b = true -> b = false) by (intros []; [discriminate|reflexivity]). constructor.
  - apply NT in C. apply Nat.eqb_neq in C. lia.
  - apply check_lines_sound. exact B.
  - apply check_lines_sound. exact A.
  - intros l Hl. apply not_occurs. apply NT. match goal with H : forall x, In x (f_before f ++ _) -> _ |- _ => exact (H l Hl) end.
  - intros l Hl. match goal with H : forall x, In x (lines_of w f) -> _ |- _ => specialize (H l Hl); apply andb_prop in H; destruct H end. split; apply not_occurs; apply NT; assumption.
  - split; [apply trimmedb_sound; assumption|]. split; apply not_occurs; apply NT; assumption.
  - apply distinctb_sound. assumption.
  - split; [|apply distinctb_sound; assumption]. intro E. rewrite E in *. discriminate.
  - split; [intro E; rewrite E in *; discriminate|]. intros s Hs. apply Nat.eqb_eq. match goal with H : forall x, In x (f_seqs f) -> _ |- _ => exact (H s Hs) end.
  - intros x Hx. match goal with H : forall x, In x (f_names f ++ _) -> _ |- _ => specialize (H x Hx); apply andb_prop in H; destruct H as [T LE] end. split; [apply trimmedb_sound; exact T|apply Nat.leb_le; exact LE].
Qed.
Theorem any_cells_written show w f before after cells : well_formed w f before after -> length cells = length (f_seqs f) -> (forall s, In s cells -> length s = length (f_names f)) ->
  settings_text show w (settings before after (f_num f) (f_kind f) (f_names f) cells) =
  Ok (join crlf (lines_of w {| f_before := f_before f; f_num := f_num f; f_kind := f_kind f; f_names := f_names f; f_seqs := map (map (py_str show)) cells; f_after := f_after f |})).
Proof.
  intros W L R. pose proof (wf_one_technique _ _ _ _ W) as OT.
  refine (file_written show w before after (f_num f) (f_kind f) (f_names f) cells (f_before f) (f_after f) _ _ (wf_before _ _ _ _ W) (wf_after _ _ _ _ W) _ (wf_keys _ _ _ _ W) (proj2 (wf_names _ _ _ _ W)) (conj _ R)).
  - intros l Hl. apply OT. apply in_app_iff in Hl. apply in_or_app. destruct Hl as [Hl|Hl]; [left; exact Hl|right; right; apply in_or_app; right; exact Hl].
  - intros ->. destruct (wf_seqs _ _ _ _ W) as [NE _]. apply NE. destruct (f_seqs f); [reflexivity|discriminate].
Qed.
Theorem round_trip show w f before after e : well_formed w f before after -> line_end e ->
  exists s, settings_of w (S (length (f_names f))) (join e (lines_of w f)) = Ok s /\ settings_text show w s = Ok (join crlf (lines_of w f)) /\
    settings_of w (S (length (f_names f))) (join crlf (lines_of w f)) = Ok s.
Proof.
  intros W E. eexists. split; [exact (file_read W e E)|]. split; [|exact (file_read W crlf (or_introl eq_refl))].
  rewrite (any_cells_written show w f before after (texts (f_seqs f)) W).
  - do 3 f_equal. unfold texts. rewrite map_map.
    assert (X : map (fun s => map (py_str show) (map VText s)) (f_seqs f) = f_seqs f). { rewrite <- (map_id (f_seqs f)) at 2. apply map_ext. intro s. rewrite map_map. cbn. apply map_id. }
    rewrite X. destruct f. reflexivity.
  - unfold texts. apply map_length.
  - intros s Hs. unfold texts in Hs. apply in_map_iff in Hs. destruct Hs as (t & <- & Ht). rewrite map_length. exact (proj2 (wf_seqs _ _ _ _ W) t Ht).
Qed.
Theorem no_technique_error w n text : (forall l, In l (mps_lines text) -> ~ occurs "Technique" l) -> settings_of w n text = Err UnboundLocalError.
Proof. intro H. unfold settings_of. rewrite technique_lines_none by (apply Forall_forall; exact H). reflexivity. Qed.
