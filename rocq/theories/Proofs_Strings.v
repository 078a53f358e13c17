(** Facts about Python string operations (split, join, in) used by several areas. *)
From Verif Require Import Py Proofs_Diagnostic.

Lemma app_assoc_s a b c : ((a ++ b) ++ c = a ++ (b ++ c))%string.
Proof. induction a; simpl; congruence. Qed.
Lemma app_nil_s a : (a ++ "" = a)%string.
Proof. induction a; simpl; congruence. Qed.
Lemma app_length_s a b : String.length (a ++ b) = (String.length a + String.length b)%nat.
Proof. induction a; simpl; congruence. Qed.
Lemma app_inv_head_s a b c : (a ++ b = a ++ c)%string -> b = c.
Proof. induction a; simpl; intro H; [exact H|]. injection H. auto. Qed.
Lemma app_inv_len a : forall b c d, (a ++ b = c ++ d)%string -> String.length a = String.length c -> a = c /\ b = d.
Proof.
  induction a as [|x a IH]; intros b [|y c] d H L; simpl in *; try discriminate; auto.
  injection H as -> H. injection L as L. destruct (IH _ _ _ H L) as [-> ->]. auto.
Qed.
(** Of two decompositions the one with the shorter head is a refinement. *)
Lemma app_split_le a : forall b c d, (a ++ b = c ++ d)%string -> (String.length a <= String.length c)%nat ->
  exists e, c = (a ++ e)%string /\ b = (e ++ d)%string.
Proof.
  induction a as [|x a IH]; intros b c d H L; simpl in *.
  - exists c. auto.
  - destruct c as [|y c]; simpl in *; [lia|]. injection H as -> H.
    destruct (IH _ _ _ H) as (e & -> & ->); [lia|]. exists e. auto.
Qed.
Lemma rev_string_acc s : forall acc, rev_string s acc = (rev_string s "" ++ acc)%string.
Proof.
  induction s as [|c s IH]; intro acc; simpl; [reflexivity|]. rewrite IH. rewrite (IH (String c "")).
  rewrite app_assoc_s. reflexivity.
Qed.

(** ** split *)
(** The occurrence of [sep] after [a] is the first one. *)
Definition first_at (a sep b : string) : Prop :=
  forall p q, (a ++ sep ++ b = p ++ sep ++ q)%string -> (String.length a <= String.length p)%nat.

Lemma split_skip sep x : forall s acc, split_aux sep (x ++ s) (String.length x) acc = split_aux sep s 0 acc.
Proof.
  induction x as [|c x IH]; intros s acc; simpl; [reflexivity|]. apply IH.
Qed.
Lemma split_first sep a : forall b acc, sep <> ""%string -> first_at a sep b ->
  split_aux sep (a ++ sep ++ b) 0 acc = (rev_string acc "" ++ a)%string :: split_aux sep b 0 "".
Proof.
  induction a as [|c a IH]; intros b acc NE F.
  - rewrite app_nil_s. destruct sep as [|c sep]; [contradiction|]. cbn [append split_aux].
    assert (P : prefix (String c sep) (String c (sep ++ b)) = true) by (apply prefix_iff; exists b; reflexivity).
    rewrite P. f_equal. replace (String.length (String c sep) - 1)%nat with (String.length sep) by (simpl; lia).
    apply split_skip.
  - cbn [append split_aux]. destruct (prefix sep (String c (a ++ sep ++ b))) eqn:P.
    + apply prefix_iff in P. destruct P as [r P]. specialize (F ""%string r P). simpl in F. lia.
    + rewrite IH; auto.
      * cbn [rev_string]. rewrite (rev_string_acc acc (String c "")), app_assoc_s. reflexivity.
      * intros p q H. specialize (F (String c p) q). simpl in F. rewrite H in F. specialize (F eq_refl). lia.
Qed.
Lemma split_none sep : forall s acc, contains sep s = false -> split_aux sep s 0 acc = [(rev_string acc "" ++ s)%string].
Proof.
  induction s as [|c s IH]; intros acc H.
  - simpl. rewrite app_nil_s. reflexivity.
  - cbn [contains] in H. apply orb_false_iff in H. destruct H as [H1 H2]. cbn [split_aux]. rewrite H1, IH by exact H2.
    cbn [rev_string]. rewrite (rev_string_acc acc (String c "")), app_assoc_s. reflexivity.
Qed.
Lemma first_exists sep s : contains sep s = true -> exists a b, s = (a ++ sep ++ b)%string /\ first_at a sep b.
Proof.
  induction s as [|c s IH]; intro H.
  - apply contains_iff in H. destruct H as (a & b & H). exists a, b. split; [exact H|]. intros p q K.
    rewrite <- H in K. destruct a; [simpl; lia|discriminate].
  - destruct (prefix sep (String c s)) eqn:P.
    + apply prefix_iff in P. destruct P as [r P]. exists ""%string, r. split; [exact P|]. intros p q _. simpl; lia.
    + cbn [contains] in H. rewrite P in H. simpl in H. destruct (IH H) as (a & b & -> & F).
      exists (String c a), b. split; [reflexivity|]. intros p q K. destruct p as [|d p].
      * exfalso. simpl in K. assert (prefix sep (String c (a ++ sep ++ b)) = true) by (apply prefix_iff; exists q; exact K). congruence.
      * simpl in K. injection K as -> K. specialize (F _ _ K). simpl. lia.
Qed.

Lemma str_split_none sep s : contains sep s = false -> str_split sep s = [s].
Proof. intro H. unfold str_split. rewrite split_none by exact H. reflexivity. Qed.
Lemma str_split_first sep a b : sep <> ""%string -> first_at a sep b -> str_split sep (a ++ sep ++ b) = a :: str_split sep b.
Proof. intros N F. unfold str_split. rewrite split_first by auto. reflexivity. Qed.
Lemma str_split_nonempty sep s : str_split sep s <> [].
Proof.
  unfold str_split. assert (G : forall s k acc, split_aux sep s k acc <> []).
  { clear. induction s as [|c s IH]; intros k acc; cbn [split_aux]; [discriminate|]. destruct k; [|apply IH].
    destruct (prefix sep (String c s)); [discriminate|apply IH]. }
  apply G.
Qed.
(** sep.join(s.split(sep)) == s *)
Lemma join_split sep s : sep <> ""%string -> join sep (str_split sep s) = s.
Proof.
  intro NE. remember (String.length s) as n eqn:L. revert s L.
  induction n as [n IH] using lt_wf_ind. intros s L.
  destruct (contains sep s) eqn:C.
  - destruct (first_exists _ _ C) as (a & b & -> & F). rewrite str_split_first by auto.
    assert (B : join sep (str_split sep b) = b).
    { apply (IH (String.length b)); [|reflexivity]. rewrite L, !app_length_s. destruct sep; [contradiction|simpl; lia]. }
    destruct (str_split sep b) as [|x l] eqn:E; [exfalso; exact (str_split_nonempty _ _ E)|].
    change (join sep (a :: x :: l)) with (a ++ sep ++ join sep (x :: l))%string. rewrite B. reflexivity.
  - rewrite str_split_none by exact C. reflexivity.
Qed.
(** No piece contains the separator. *)
Lemma first_at_no sep a b : sep <> ""%string -> first_at a sep b -> contains sep a = false.
Proof.
  intros NE F. destruct (contains sep a) eqn:C; [|reflexivity]. apply contains_iff in C. destruct C as (x & y & ->).
  specialize (F x (y ++ sep ++ b)%string). rewrite !app_length_s in F.
  assert (String.length sep > 0)%nat by (destruct sep; [contradiction|simpl; lia]).
  rewrite !app_assoc_s in F. specialize (F eq_refl). lia.
Qed.
Lemma split_pieces sep s p : sep <> ""%string -> In p (str_split sep s) -> contains sep p = false.
Proof.
  intro NE. remember (String.length s) as n eqn:L. revert s L.
  induction n as [n IH] using lt_wf_ind. intros s L H.
  destruct (contains sep s) eqn:C.
  - destruct (first_exists _ _ C) as (a & b & -> & F). rewrite str_split_first in H by auto.
    destruct H as [<-|H]; [exact (first_at_no _ _ _ NE F)|].
    apply (IH (String.length b)) with (s := b); auto. rewrite L, !app_length_s. destruct sep; [contradiction|simpl; lia].
  - rewrite str_split_none in H by exact C. destruct H as [<-|[]]. exact C.
Qed.
(** Single character separators: split inverts join. *)
Definition char_free (c : ascii) (s : string) : Prop := contains (String c "") s = false.
Lemma char_free_cons c d s : char_free c (String d s) <-> d <> c /\ char_free c s.
Proof.
  unfold char_free. cbn [contains]. rewrite orb_false_iff.
  assert (P : prefix (String c "") (String d s) = false <-> d <> c).
  { cbn [prefix]. destruct (ascii_dec c d); [split; [|congruence]|].
    - destruct s; discriminate.
    - split; [congruence|auto]. }
  rewrite P. tauto.
Qed.
Lemma char_free_app c a b : char_free c (a ++ b) <-> char_free c a /\ char_free c b.
Proof.
  induction a as [|d a IH]; simpl.
  - split; [intro H; split; [reflexivity|exact H]|tauto].
  - rewrite !char_free_cons, IH. tauto.
Qed.
Lemma char_first c a b : char_free c a -> first_at a (String c "") b.
Proof.
  intros F p q H. destruct (le_lt_dec (String.length a) (String.length p)) as [K|K]; [exact K|].
  exfalso. symmetry in H. destruct (app_split_le _ _ _ _ H) as (e & -> & E); [lia|].
  apply char_free_app in F. destruct F as [_ F]. rewrite app_length_s in K.
  destruct e as [|d e]; [simpl in K; lia|]. simpl in E. injection E as <- _. apply char_free_cons in F. tauto.
Qed.
Lemma str_split_char c a b : char_free c a -> str_split (String c "") (a ++ String c b) = a :: str_split (String c "") b.
Proof.
  intro F. change (String c b) with (String c "" ++ b)%string. apply str_split_first; [discriminate|]. apply char_first; exact F.
Qed.
Lemma split_join c l : l <> [] -> Forall (char_free c) l -> str_split (String c "") (join (String c "") l) = l.
Proof.
  intros NE F. induction l as [|x l IH]; [contradiction|]. inversion F; subst. destruct l as [|y l].
  - simpl. apply str_split_none. assumption.
  - change (join (String c "") (x :: y :: l)) with (x ++ String c (join (String c "") (y :: l)))%string.
    rewrite str_split_char by assumption. rewrite IH; [reflexivity|discriminate|assumption].
Qed.
