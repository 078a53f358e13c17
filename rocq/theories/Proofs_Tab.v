(** Frames as tables of a function, and what the frame operations do to them. *)
From Coq Require Import Permutation.
From Verif Require Import Py Num Model_Summary Model_Features Spec_Features Proofs_Diagnostic Proofs_Structure Proofs_Frames Model_Splitter Spec_Splitter.

Definition tab (cols ls : list string) (v : string -> string -> cell) : matrix :=
  {| m_columns := cols; m_rows := map (fun s => (s, map (v s) cols)) ls |}.
Lemma tab_labels cols ls v : labels (tab cols ls v) = ls.
Proof. unfold labels, tab. cbn. rewrite map_map. cbn. apply map_id. Qed.
Lemma tab_ext cols ls v w : (forall s n, In s ls -> In n cols -> v s n = w s n) -> tab cols ls v = tab cols ls w.
Proof. intro H. unfold tab. f_equal. apply map_ext_in. intros s S. f_equal. apply map_ext_in. intros n N. apply H; assumption. Qed.
Lemma tab_rows cols ls v : length (m_rows (tab cols ls v)) = length ls.
Proof. cbn. apply map_length. Qed.
Lemma tab_get cols ls v s : In s ls -> sget (m_rows (tab cols ls v)) s = Some (map (v s) cols).
Proof.
  cbn. induction ls as [|t ls IH]; [intros []|]. intros I. cbn. destruct (String.eqb_spec s t) as [->|N]; [reflexivity|]. destruct I as [E|I]; [congruence|]. apply IH, I.
Qed.
Lemma tab_entry cols ls v s n : In s ls -> In n cols -> entry (tab cols ls v) s n = Some (v s n).
Proof.
  intros S N. unfold entry. rewrite tab_get by exact S. apply position_in in N. destruct N as [i N]. cbn [m_columns tab]. rewrite N. exact (position_map _ _ _ _ N).
Qed.

Definition value (m : matrix) (s n : string) : cell := match entry m s n with Some c => c | None => NaN end.
Lemma position_self (l : list string) i x : NoDup l -> nth_error l i = Some x -> position String.eqb x l = Some i.
Proof.
  revert i. induction l as [|y l IH]; intros i ND H; [destruct i; discriminate|]. inversion ND as [|? ? N ND']; subst. cbn. destruct i as [|i]; cbn in H.
  - injection H as ->. rewrite String.eqb_refl. reflexivity.
  - destruct (String.eqb_spec x y) as [->|]; [exfalso; apply N; eapply nth_error_In; exact H|]. rewrite (IH i ND' H). reflexivity.
Qed.
Lemma list_nth_ext {A} (l : list A) : forall l', (forall i, nth_error l i = nth_error l' i) -> l = l'.
Proof.
  induction l as [|x l IH]; intros [|y l'] H; [reflexivity|specialize (H 0%nat); discriminate|specialize (H 0%nat); discriminate|].
  pose proof (H 0%nat) as E. cbn in E. injection E as ->. f_equal. apply IH. intro i. exact (H (S i)).
Qed.
Lemma proper_tab m : proper m -> m = tab (m_columns m) (labels m) (value m).
Proof.
  intros (NC & NL & LEN). destruct m as [cols rows]. unfold tab, labels in *. cbn [m_columns m_rows] in *. f_equal. rewrite map_map.
  rewrite <- (map_id rows) at 1. apply map_ext_in. intros [s r] I. cbn [fst]. f_equal. rewrite Forall_forall in LEN. specialize (LEN _ I). cbn [snd] in LEN.
  apply list_nth_ext. intro i. destruct (nth_error cols i) as [n|] eqn:N.
  - rewrite (map_nth_error _ _ _ N). unfold value, entry. cbn [m_columns m_rows]. rewrite (proj2 (sget_in rows s r NL) I). rewrite (position_self _ _ _ NC N).
    destruct (nth_error r i) eqn:R; [reflexivity|]. exfalso. apply nth_error_None in R. assert (i < length cols)%nat by (apply nth_error_Some; congruence). lia.
  - apply nth_error_None in N. transitivity (@None cell); [apply nth_error_None; lia|symmetry; apply nth_error_None; rewrite map_length; exact N].
Qed.

(** ** Operations *)
Lemma tab_cells f cols ls v : map_cells f (tab cols ls v) = tab cols ls (fun s n => f (v s n)).
Proof. unfold map_cells, tab. cbn. f_equal. rewrite map_map. apply map_ext. intro s. cbn. rewrite map_map. reflexivity. Qed.
Lemma combine_map_r {A B} (f : A -> B) l : combine l (map f l) = map (fun x => (x, f x)) l.
Proof. induction l as [|x l IH]; cbn; [reflexivity|]. rewrite IH. reflexivity. Qed.
Lemma combine_self {A} (l : list A) : combine l l = map (fun x => (x, x)) l.
Proof. induction l as [|x l IH]; cbn; [reflexivity|]. rewrite IH. reflexivity. Qed.
Lemma filter_map {A B} (f : A -> B) p l : filter p (map f l) = map f (filter (fun x => p (f x)) l).
Proof. induction l as [|x l IH]; cbn; [reflexivity|]. destruct (p (f x)); cbn; rewrite IH; reflexivity. Qed.
Lemma filter_eq_one l n : NoDup l -> In n l -> filter (String.eqb n) l = [n].
Proof.
  induction 1 as [|x l N ND IH]; [intros []|]. intros [->|I]; cbn.
  - rewrite String.eqb_refl. f_equal. clear - N. induction l as [|y l IH]; cbn in *; [reflexivity|]. destruct (String.eqb_spec n y) as [->|]; [tauto|]. apply IH. tauto.
  - destruct (String.eqb_spec n x) as [->|]; [tauto|]. apply IH, I.
Qed.
Lemma pick_map {B} (f : string -> B) cols names : NoDup cols -> (forall n, In n names -> In n cols) -> pick cols names (map f cols) = map f names.
Proof.
  intros ND SUB. unfold pick. rewrite combine_map_r. induction names as [|n names IH]; cbn; [reflexivity|].
  rewrite IH by (intros; apply SUB; right; assumption). rewrite filter_map. cbn. change (filter (fun x => String.eqb n x) cols) with (filter (String.eqb n) cols). rewrite (filter_eq_one _ _ ND (SUB n (or_introl eq_refl))). reflexivity.
Qed.
Lemma tab_select names cols ls v : NoDup cols -> (forall n, In n names -> In n cols) -> select names (tab cols ls v) = tab names ls v.
Proof.
  intros ND SUB. unfold select, tab. cbn. f_equal.
  - rewrite <- (map_id cols) at 2. rewrite pick_map by assumption. apply map_id.
  - rewrite map_map. apply map_ext. intro s. cbn. f_equal. apply pick_map; assumption.
Qed.
Lemma col_nth cols ls v i : col (tab cols ls v) i = match nth_error cols i with Some n => map (fun s => v s n) ls | None => [] end.
Proof.
  unfold col, tab. cbn [m_rows]. induction ls as [|s ls IH]; cbn; [destruct (nth_error cols i); reflexivity|].
  rewrite IH. destruct (nth_error cols i) as [n|] eqn:E.
  - rewrite (map_nth_error _ _ _ E). reflexivity.
  - replace (nth_error (map (v s) cols) i) with (@None cell); [reflexivity|]. symmetry. apply nth_error_None. rewrite map_length. apply nth_error_None, E.
Qed.
Lemma seq_nth_map {B} (cols : list string) (f : option string -> B) : map (fun i => f (nth_error cols i)) (seq 0 (length cols)) = map (fun n => f (Some n)) cols.
Proof.
  induction cols as [|c cols IH]; cbn; [reflexivity|]. f_equal. rewrite <- seq_shift, map_map. cbn. exact IH.
Qed.
Lemma masked_map {A B} (p : A -> bool) (f : A -> B) l : masked (map p l) (map f l) = map f (filter p l).
Proof. unfold masked. induction l as [|x l IH]; cbn; [reflexivity|]. destruct (p x); cbn; rewrite IH; reflexivity. Qed.
Definition nonnan (c : cell) : bool := negb (is_nan c).
Lemma count_filter_map {A} (f : A -> cell) l : present (map f l) = count (filter (fun x => nonnan (f x)) l).
Proof. unfold present, count. rewrite filter_map, map_length. reflexivity. Qed.
Lemma tab_drop_columns t cols ls v :
  drop_columns t (tab cols ls v) = tab (filter (fun n => Qle_bool t (count (filter (fun s => nonnan (v s n)) ls))) cols) ls v.
Proof.
  unfold drop_columns. cbn [m_columns tab m_rows].
  replace (map (fun i => Qle_bool t (present (col (tab cols ls v) i))) (seq 0 (length cols)))
    with (map (fun n => Qle_bool t (count (filter (fun s => nonnan (v s n)) ls))) cols).
  2:{ rewrite (map_ext _ (fun i => Qle_bool t (present (match nth_error cols i with Some n => map (fun s => v s n) ls | None => [] end))) (fun i => f_equal (fun x => Qle_bool t (present x)) (col_nth cols ls v i))).
      rewrite (seq_nth_map cols (fun o => Qle_bool t (present (match o with Some n => map (fun s => v s n) ls | None => [] end)))).
      apply map_ext. intro n. rewrite count_filter_map. reflexivity. }
  unfold tab. f_equal.
  - rewrite <- (map_id cols) at 2. rewrite masked_map. apply map_id.
  - rewrite map_map. apply map_ext. intro s. cbn. f_equal. apply masked_map.
Qed.
Lemma tab_drop_rows t cols ls v :
  drop_rows t (tab cols ls v) = tab cols (filter (fun s => Qle_bool t (count (filter (fun n => nonnan (v s n)) cols))) ls) v.
Proof.
  unfold drop_rows, tab. cbn. f_equal. rewrite filter_map. f_equal. apply filter_ext. intro s. cbn. rewrite count_filter_map. reflexivity.
Qed.
Lemma tab_fill es cols ls v : fill_exclusions es (tab cols ls v) = tab cols ls (fun s n => if str_in n es then fillna (Flag false) (v s n) else v s n).
Proof.
  unfold fill_exclusions, tab. cbn. f_equal. rewrite map_map. apply map_ext. intro s. cbn. f_equal. rewrite combine_map_r, map_map. reflexivity.
Qed.
Lemma mapM_seq {B} (f : nat -> result B) : forall l a, mapM f (seq a (length l)) = mapM (fun p => f (fst p)) (combine (seq a (length l)) (l : list string)).
Proof. induction l as [|x l IH]; intro a; cbn; [reflexivity|]. rewrite IH. reflexivity. Qed.
Lemma mapM_ext {A B} (f g : A -> result B) l : (forall x, In x l -> f x = g x) -> mapM f l = mapM g l.
Proof.
  induction l as [|x l IH]; intro H; cbn; [reflexivity|]. rewrite (H x) by (left; reflexivity). rewrite IH by (intros; apply H; right; assumption). reflexivity.
Qed.
Lemma mapM_nth {B} (cols : list string) (f : option string -> result B) : mapM (fun i => f (nth_error cols i)) (seq 0 (length cols)) = mapM (fun n => f (Some n)) cols.
Proof.
  induction cols as [|c cols IH]; cbn; [reflexivity|]. destruct (f (Some c)); cbn; [|reflexivity].
  rewrite <- IH. f_equal. rewrite <- seq_shift. clear. generalize (seq 0 (length cols)). intro l. induction l as [|i l IH]; cbn; [reflexivity|]. rewrite IH. reflexivity.
Qed.
(** Imputation fills each column with one value and leaves the rest alone. *)
Lemma tab_impute method cols ls v X : NoDup cols -> impute method (tab cols ls v) = Ok X ->
  exists fill, X = tab cols ls (fun s n => fillna (fill n) (v s n)) /\
    (method = "none"%string -> forall n, fill n = NaN) /\
    (method <> "none"%string -> forall n, In n cols -> filler method (map (fun s => v s n) ls) = Ok (fill n)).
Proof.
  intros ND. unfold impute. destruct (String.eqb method "median" || String.eqb method "mean") eqn:ME.
  - assert (NN : method <> "none"%string) by (intros ->; discriminate).
    cbn [m_columns tab m_rows].
    replace (mapM (fun i => filler method (col (tab cols ls v) i)) (seq 0 (length cols))) with (mapM (fun n => filler method (map (fun s => v s n) ls)) cols).
    2:{ rewrite <- (mapM_nth cols (fun o => filler method (match o with Some n => map (fun s => v s n) ls | None => [] end))). apply mapM_ext. intros i _. rewrite col_nth. reflexivity. }
    destruct (mapM _ cols) as [fs|] eqn:M; cbn [bind]; [|discriminate]. intros [= <-].
    exists (fun n => match sget (combine cols fs) n with Some x => x | None => NaN end).
    apply mapM_ok in M.
    assert (FN : forall n f, In (n, f) (combine cols fs) -> sget (combine cols fs) n = Some f /\ filler method (map (fun s => v s n) ls) = Ok f).
    { clear - ND M. induction M as [|n f cols fs H M IH]; [intros ? ? []|]. inversion ND as [|? ? N ND']; subst. intros k g [E|I]; cbn.
      - injection E as <- <-. rewrite String.eqb_refl. auto.
      - destruct (String.eqb_spec k n) as [->|]; [apply in_combine_l in I; tauto|]. apply IH; assumption. }
    assert (LEN : length cols = length fs) by (eapply F2_length; exact M).
    split; [|split; [congruence|]].
    + unfold tab. cbn. f_equal. rewrite map_map. apply map_ext. intro s. cbn. f_equal.
      assert (G : forall a b, (forall n f, In (n, f) (combine a b) -> sget (combine cols fs) n = Some f) -> length a = length b ->
                map (fun p => fillna (fst p) (snd p)) (combine b (map (v s) a)) = map (fun n => fillna (match sget (combine cols fs) n with Some x => x | None => NaN end) (v s n)) a).
      { clear. induction a as [|n a IH]; intros [|f b] H L; try discriminate; cbn; [reflexivity|]. rewrite (H n f (or_introl eq_refl)). f_equal. apply IH; [|cbn in L; lia]. intros; apply H; right; assumption. }
      apply G; [intros n f I; apply FN, I|exact LEN].
    + intros _ n N. destruct (In_nth_error _ _ N) as [i I]. assert (L : (i < length fs)%nat) by (rewrite <- LEN; apply nth_error_Some; congruence).
      destruct (nth_error fs i) as [f|] eqn:F; [|apply nth_error_None in F; lia].
      assert (J : In (n, f) (combine cols fs)). { clear - I F. revert i fs I F. induction cols as [|c cols IH]; intros [|i] [|g fs] I F; try discriminate; cbn in *; [injection I as ->; injection F as ->; auto|]. right. eapply IH; eassumption. }
      destruct (FN _ _ J) as [-> H]. exact H.
  - destruct (String.eqb_spec method "none") as [->|N]; [|discriminate]. intros [= <-]. exists (fun _ => NaN). split; [|split; [reflexivity|congruence]].
    apply tab_ext. intros s n _ _. unfold fillna. destruct (v s n); reflexivity.
Qed.

Lemma nth_map {A B} (f : A -> B) l i : nth_error (map f l) i = option_map f (nth_error l i).
Proof. revert i. induction l as [|x l IH]; intros [|i]; cbn; try reflexivity. apply IH. Qed.
Lemma tab_column n cols ls v : NoDup cols -> In n cols -> column n (tab cols ls v) = Ok (map (fun s => v s n) ls).
Proof.
  intros ND I. unfold column. cbn [m_columns tab].
  assert (G : forall cols a, NoDup cols -> In n cols -> exists i, nth_error cols i = Some n /\ filter (fun p => String.eqb n (fst p)) (combine cols (seq a (length cols))) = [(n, (a + i)%nat)]).
  { clear. induction cols as [|c cols IH]; intros a ND I; [destruct I|]. inversion ND as [|? ? N ND']; subst. cbn. destruct (String.eqb_spec n c) as [->|NE].
    - exists 0%nat. split; [reflexivity|]. rewrite Nat.add_0_r. f_equal. clear - N. revert N. generalize (S a). induction cols as [|x cols IH]; intros b N; cbn in *; [reflexivity|].
      destruct (String.eqb_spec c x) as [->|]; [tauto|]. apply IH. tauto.
    - destruct I as [E|I]; [congruence|]. destruct (IH (S a) ND' I) as (i & H1 & H2). exists (S i). split; [exact H1|]. rewrite H2. do 2 f_equal. lia. }
  destruct (G cols 0%nat ND I) as (i & H1 & H2). rewrite H2. cbn [snd plus]. rewrite col_nth, H1. reflexivity.
Qed.
Lemma tab_column_missing n cols ls v : ~ In n cols -> column n (tab cols ls v) = Err KeyError.
Proof.
  intros N. unfold column. cbn [m_columns tab].
  replace (filter _ _) with (@nil (string * nat)); [reflexivity|]. symmetry. generalize 0%nat. revert N. induction cols as [|c cols IH]; intros N a; cbn in *; [reflexivity|].
  destruct (String.eqb_spec n c) as [->|]; [tauto|]. apply IH. tauto.
Qed.

Section Grouping.
  Variable str : cell -> string.
  Definition group_text (ss : list string) (v : string -> string -> cell) (s : string) : string := join "::" (map (fun n => str (v s n)) ss).
  Definition grouped (ss : list string) (v : string -> string -> cell) (s n : string) : cell :=
    if String.eqb n "grouping_column" then Text (group_text ss v s) else v s n.
  Lemma tab_groups ss cols ls v X : NoDup cols -> ~ In "grouping_column"%string cols -> add_groups str ss (tab cols ls v) = Ok X ->
    (forall n, In n ss -> In n cols) /\ X = tab (cols ++ ["grouping_column"%string]) ls (grouped ss v).
  Proof.
    intros ND NG. unfold add_groups. destruct (mapM _ ss) as [cs|] eqn:M; cbn [bind]; [|discriminate]. intros [= <-]. apply mapM_ok in M.
    assert (SUB : forall n, In n ss -> In n cols).
    { intros n N. destruct (in_dec string_dec n cols) as [I|NI]; [exact I|]. exfalso. clear - M N NI. induction M as [|x y ss cs H M IH]; [destruct N|].
      destruct N as [->|N]; [rewrite (tab_column_missing _ _ _ _ NI) in H; discriminate|apply IH, N]. }
    assert (CS : cs = map (fun n => map (fun s => v s n) ls) ss).
    { clear - M SUB ND. induction M as [|x y ss cs H M IH]; [reflexivity|]. cbn. f_equal; [|apply IH; intros; apply SUB; right; assumption].
      rewrite (tab_column _ _ _ _ ND (SUB x (or_introl eq_refl))) in H. injection H as <-. reflexivity. }
    split; [exact SUB|]. subst cs. cbn [m_columns m_rows tab]. rewrite map_length. unfold tab. f_equal.
    replace (transpose_join str _ _) with (map (group_text ss v) ls).
    2:{ unfold transpose_join. rewrite (map_ext _ (fun i => (fun o => join "::" (flat_map (fun n => match option_map (fun s => v s n) o with Some x => [str x] | None => [] end) ss)) (nth_error ls i))).
        - rewrite (seq_nth_map ls (fun o => join "::" (flat_map (fun n => match option_map (fun s => v s n) o with Some x => [str x] | None => [] end) ss))). apply map_ext. intro s. cbn. unfold group_text. f_equal.
        - intro i. f_equal. clear. induction ss as [|n ss IH]; cbn; [reflexivity|]. rewrite IH, nth_map. reflexivity. }
    assert (C : forall (f : string -> list cell) l, combine (map (fun s => (s, f s)) l) (map (group_text ss v) l) = map (fun s => ((s, f s), group_text ss v s)) l).
    { clear. intros f l. induction l as [|x l IH]; cbn; [reflexivity|]. rewrite IH. reflexivity. }
    rewrite C, map_map. apply map_ext. intro s. cbn. f_equal. rewrite map_app. cbn. f_equal.
    apply map_ext_in. intros n N. unfold grouped. destruct (String.eqb_spec n "grouping_column") as [->|]; [tauto|reflexivity].
  Qed.
  Lemma group_of_tab ss v cols s : group_of (s, map (grouped ss v s) (cols ++ ["grouping_column"%string])) = group_text ss v s.
  Proof. unfold group_of. cbn [snd]. rewrite map_app. cbn [map]. rewrite last_last. reflexivity. Qed.

  Definition truth (c : cell) : bool := match c with Flag b => b | _ => false end.
  Lemma flags_ok l bs : flags l = Ok bs -> bs = map truth l /\ Forall (fun c => exists b, c = Flag b) l.
  Proof.
    unfold flags. intro H. apply mapM_ok in H. induction H as [|c b l bs H F IH]; [auto|]. destruct IH as [-> IH]. destruct c; try discriminate. injection H as ->.
    split; [reflexivity|]. constructor; [eauto|exact IH].
  Qed.
  Lemma tab_mask es cols ls v mask : NoDup cols -> mask_of es (tab cols ls v) = Ok mask ->
    mask = map (fun s => forallb (fun e => truth (v s e)) es) ls /\ forall s e, In s ls -> In e es -> exists b, v s e = Flag b.
  Proof.
    intros ND. unfold mask_of. destruct es as [|e0 es0]; [discriminate|]. set (es := e0 :: es0).
    destruct (mapM _ es) as [cs|] eqn:M; cbn [bind]; [|discriminate]. intros [= <-]. apply mapM_ok in M.
    assert (G : cs = map (fun e => map (fun s => truth (v s e)) ls) es /\ forall s e, In s ls -> In e es -> exists b, v s e = Flag b).
    { clear - M ND. induction M as [|e c es cs H M IH]; [split; [reflexivity|intros ? ? ? []]|]. destruct IH as [-> IH].
      destruct (in_dec string_dec e cols) as [I|NI]; [|rewrite (tab_column_missing _ _ _ _ NI) in H; discriminate].
      rewrite (tab_column _ _ _ _ ND I) in H. cbn [bind] in H. apply flags_ok in H. destruct H as [-> F]. rewrite map_map. split; [reflexivity|].
      intros s e' S [<-|E]; [|apply IH; assumption]. rewrite Forall_forall in F. apply F. apply in_map_iff. exists s. auto. }
    destruct G as [-> F]. split; [|exact F]. cbn [m_rows tab]. rewrite map_map. clear.
    induction es as [|e es IH]; cbn; [reflexivity|]. rewrite IH. clear. induction ls as [|s ls IH]; cbn; [reflexivity|]. rewrite IH. reflexivity.
  Qed.
  Lemma tab_keep p cols ls v : keep_rows (map p ls) (tab cols ls v) = tab cols (filter p ls) v.
  Proof. unfold keep_rows, tab. cbn. f_equal. apply masked_map. Qed.
  Definition share (ss : list string) (v : string -> string -> cell) (p : string -> bool) (ls : list string) (s : string) : Q :=
    let members := filter (fun t => String.eqb (group_text ss v s) (group_text ss v t)) ls in count (filter p members) / count members.
  Lemma filter_filter {A} (p q : A -> bool) l : filter p (filter q l) = filter (fun x => q x && p x) l.
  Proof. induction l as [|x l IH]; cbn; [reflexivity|]. destruct (q x); cbn; [|exact IH]. destruct (p x); rewrite IH; reflexivity. Qed.
  Lemma tab_drop_groups thr ss v p cols ls :
    let C := cols ++ ["grouping_column"%string] in
    drop_groups thr (tab C ls (grouped ss v)) (tab C (filter p ls) (grouped ss v)) = tab C (filter (fun s => p s && Qle_bool thr (share ss v p ls s)) ls) (grouped ss v).
  Proof.
    intro C. unfold drop_groups, tab. cbn [m_columns m_rows]. f_equal. rewrite filter_map. rewrite <- filter_filter. f_equal. apply filter_ext_in. intros s S. apply filter_In in S. destruct S as [S P].
    unfold C. rewrite group_of_tab. apply Bool.eq_iff_eq_true. rewrite negb_true_iff, str_in_false, filter_In, uniq_in, map_map.
    assert (GM : forall l g, count (filter (fun r => String.eqb g (group_of r)) (map (fun s => (s, map (grouped ss v s) C)) l)) = count (filter (fun t => String.eqb g (group_text ss v t)) l)).
    { intros l g. unfold count. rewrite filter_map, map_length. do 3 f_equal. apply filter_ext. intro t. unfold C. rewrite group_of_tab. reflexivity. }
    fold C. rewrite !GM. fold C.
    assert (SH : count (filter (fun t => String.eqb (group_text ss v s) (group_text ss v t)) (filter p ls)) / count (filter (fun t => String.eqb (group_text ss v s) (group_text ss v t)) ls) == share ss v p ls s).
    { unfold share. rewrite !filter_filter. match goal with |- ?a == ?b => replace a with b; [apply Qeq_refl|] end. do 2 f_equal. apply filter_ext. intro t. apply andb_comm. }
    split.
    - intro H. apply Qle_bool_iff. rewrite <- SH. apply Qlt_bool_false. destruct (Qlt_bool _ thr) eqn:E; [|reflexivity]. exfalso. apply H. split; [|reflexivity].
      apply in_map_iff. exists s. split; [unfold C; apply group_of_tab|exact S].
    - intros H [_ H']. apply Qle_bool_iff in H. apply Qlt_bool_iff in H'. rewrite SH in H'. apply (Qlt_not_le _ _ H' H).
  Qed.
End Grouping.
Lemma tab_loc ls' cols ls v : NoDup ls -> (forall s, In s ls' -> In s ls) -> loc ls' (tab cols ls v) = tab cols ls' v.
Proof.
  intros ND SUB. unfold loc, tab. cbn. f_equal. induction ls' as [|s ls' IH]; cbn; [reflexivity|]. rewrite IH by (intros; apply SUB; right; assumption).
  rewrite filter_map. cbn. change (filter (fun x => String.eqb s x) ls) with (filter (String.eqb s) ls). rewrite (filter_eq_one _ _ ND (SUB s (or_introl eq_refl))). reflexivity.
Qed.
Lemma tab_nan cols ls v : has_nan (tab cols ls v) = existsb (fun s => existsb (fun n => is_nan (v s n)) cols) ls.
Proof.
  unfold has_nan, tab. cbn. induction ls as [|s ls IH]; cbn; [reflexivity|]. rewrite IH. f_equal. clear. induction cols as [|n cols IH]; cbn; [reflexivity|]. rewrite IH. reflexivity.
Qed.
Lemma tab_iloc is cols ls v : iloc is (tab cols ls v) = tab cols (at_indices ls is) v.
Proof.
  unfold iloc, tab, at_indices. cbn. f_equal. induction is as [|i is IH]; cbn; [reflexivity|]. rewrite IH, nth_map. destruct (nth_error ls i); reflexivity.
Qed.
