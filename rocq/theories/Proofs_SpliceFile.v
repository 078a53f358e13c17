(** Proofs for C140. *)
From Verif Require Import Py Num Model_Arbin Model_Readers Model_RawFile Model_SpliceFile Spec_SpliceFile Proofs_Strings.
From Verif Require Proofs_Components.
From Coq Require Import Lqa.

(** ** Lines *)
Lemma without_free c s : without c s -> char_free c s.
Proof.
  unfold without. induction s as [|d s IH]; intros H; [reflexivity|]. apply char_free_cons. cbn [list_ascii_of_string In] in H. split; [intros E; apply H; left; exact E | apply IH; intros I; apply H; right; exact I].
Qed.
Lemma file_lines_line l s : line l -> file_lines (l ++ newline ++ s) = (l ++ newline)%string :: file_lines s.
Proof.
  induction l as [|c l IH]; intros H; cbn [append file_lines]; [reflexivity|].
  destruct (Ascii.eqb_spec c nl) as [->|N]; [elim H; left; reflexivity|]. rewrite IH; [reflexivity|]. intros I. apply H. right. exact I.
Qed.
Lemma file_lines_content ls : Forall line ls -> file_lines (content ls) = map (fun l => (l ++ newline)%string) ls.
Proof.
  induction 1 as [|l ls L F IH]; [reflexivity|]. unfold content. cbn [map]. assert (E : String.concat "" ((l ++ newline)%string :: map (fun l => (l ++ newline)%string) ls) = ((l ++ newline) ++ content ls)%string).
  { unfold content. destruct ls; [cbn [map String.concat]; rewrite app_nil_s; reflexivity | reflexivity]. }
  change (String (ascii_of_nat 10) "") with newline. rewrite E, app_assoc_s, file_lines_line by exact L. rewrite IH. reflexivity.
Qed.
Lemma split_lines l ls : Forall line (l :: ls) -> str_split newline (join newline (map (fun l => (l ++ newline)%string) (l :: ls))) = flat_map (fun l => [l; ""%string]) (l :: ls).
Proof.
  revert l. induction ls as [|m ls IH]; intros l F; inversion F as [|? ? L F']; subst.
  - cbn [map join flat_map app]. unfold newline. rewrite (str_split_char nl l "") by (apply without_free; exact L). reflexivity.
  - specialize (IH m F'). cbn [map] in *. set (J := join newline _) in IH. change (join newline ((l ++ newline) :: (m ++ newline) :: map (fun l => l ++ newline) ls)%string) with ((l ++ newline) ++ newline ++ J)%string.
    rewrite app_assoc_s. change (l ++ newline ++ newline ++ J)%string with (l ++ String nl (String nl J))%string. change newline with (String nl "") in *. rewrite (str_split_char nl l) by (apply without_free; exact L). cbn [flat_map app]. f_equal.
    pose proof (str_split_char nl "" J eq_refl) as X. cbn [append] in X. rewrite X. f_equal. exact IH.
Qed.
Lemma filter_blank ls : filter (fun l => negb (only_blanks l)) (flat_map (fun l => [l; ""%string]) ls) = filter (fun l => negb (only_blanks l)) ls.
Proof. induction ls as [|l ls IH]; [reflexivity|]. cbn [flat_map app filter]. cbn [only_blanks negb]. rewrite IH. reflexivity. Qed.
Lemma read_lines value ls : Forall line ls -> read_tsv value (join newline (map (fun l => (l ++ newline)%string) ls)) =
  match filter (fun l => negb (only_blanks l)) ls with [] => Err (OtherError "EmptyDataError") | h :: r => let! rows := mapM (cells_of value (length (str_split tab h))) r in Ok (str_split tab h, rows) end.
Proof.
  intros F. unfold read_tsv. destruct ls as [|l ls]; [reflexivity|]. rewrite split_lines by exact F. rewrite filter_blank. reflexivity.
Qed.
Theorem read_file value meta ls : line meta -> Forall line ls -> read_maccor_file value (content (meta :: ls)) =
  match filter (fun l => negb (only_blanks l)) ls with [] => Err (OtherError "EmptyDataError") | h :: r => let! rows := mapM (cells_of value (length (str_split tab h))) r in Ok ((meta ++ newline)%string, (str_split tab h, rows)) end.
Proof.
  intros M F. unfold read_maccor_file. rewrite file_lines_content by (constructor; assumption). cbn [map]. rewrite read_lines by exact F. destruct (filter _ ls); [reflexivity|]. destruct (mapM _ _); reflexivity.
Qed.

(** ** Writing *)
Lemma tab_not_blank a b l : only_blanks (join tab (a :: b :: l)) = false.
Proof. cbn [join]. induction a as [|c a IH]; [reflexivity|]. cbn [append only_blanks]. rewrite IH. apply andb_false_r. Qed.
Lemma without_app c a b : without c a -> without c b -> without c (a ++ b).
Proof. unfold without. induction a as [|d a IH]; intros A B; [exact B|]. cbn [append list_ascii_of_string In] in *. intros [E|I]; [apply A; left; exact E | apply IH; [intros X; apply A; right; exact X | exact B | exact I]]. Qed.
Lemma join_line l : Forall field l -> line (join tab l).
Proof.
  induction 1 as [|a l (A & _) F IH]; [intros []|]. destruct l as [|b l]; [exact A|]. cbn [join]. apply without_app; [exact A|]. apply without_app; [|exact IH]. intros [E|[]]. discriminate E.
Qed.
Lemma split_tab l : l <> [] -> Forall field l -> str_split tab (join tab l) = l.
Proof. intros N F. apply split_join; [exact N|]. eapply Forall_impl; [|exact F]. intros a (_ & A). apply without_free. exact A. Qed.
Definition row_lines (text : cell -> string) (d : frame) : list string := join tab (fst d) :: map (fun r => join tab (map text r)) (snd d).
Lemma write_lines text meta d : write_maccor_file text (meta ++ newline) d = content (meta :: row_lines text d).
Proof.
  unfold write_maccor_file, content, row_lines. cbn [map]. rewrite !map_map. change (String (ascii_of_nat 10) "") with newline. reflexivity.
Qed.
Lemma storable_lines value text d : storable value text d -> Forall line (row_lines text d) /\ filter (fun l => negb (only_blanks l)) (row_lines text d) = row_lines text d.
Proof.
  intros (W & _ & H & R). assert (G : forall l, (2 <= length l)%nat -> only_blanks (join tab l) = false) by (intros [|a [|b l]] L; cbn [length] in L; try lia; apply tab_not_blank).
  unfold row_lines. split.
  - constructor; [apply join_line; exact H|]. apply Forall_map. eapply Forall_impl; [|exact R]. intros r (_ & F). apply join_line. apply Forall_map. eapply Forall_impl; [|exact F]. intros v (V & _). exact V.
  - cbn [filter]. rewrite (G _ W). cbn [negb]. f_equal. induction R as [|r rows (L & F) R IH]; [reflexivity|]. cbn [map filter]. rewrite G by (rewrite map_length; lia). cbn [negb]. f_equal. exact IH.
Qed.
Theorem round_trip value text meta d : line meta -> storable value text d -> read_maccor_file value (write_maccor_file text (meta ++ newline) d) = Ok ((meta ++ newline)%string, d).
Proof.
  intros M S. destruct (storable_lines value text d S) as (L & F). rewrite write_lines, read_file by assumption. rewrite F. unfold row_lines. destruct S as (W & _ & H & R).
  rewrite split_tab; [|intros E; rewrite E in W; cbn in W; lia | exact H].
  assert (X : mapM (cells_of value (length (fst d))) (map (fun r => join tab (map text r)) (snd d)) = Ok (snd d)).
  { induction R as [|r rows (LR & FR) R IH]; [reflexivity|]. cbn [map mapM]. unfold cells_of at 1. rewrite split_tab.
    - rewrite !map_length, LR, Nat.leb_refl, Nat.sub_diag. cbn [repeat bind]. rewrite IH. cbn [bind]. rewrite app_nil_r, map_map. repeat f_equal. clear -FR. induction FR as [|v r (_ & V) F IH]; [reflexivity|]. cbn [map]. rewrite V, IH. reflexivity.
    - intros E. apply map_eq_nil in E. subst r. cbn [length] in LR. lia.
    - apply Forall_map. eapply Forall_impl; [|exact FR]. intros v (V & _). exact V. }
  rewrite X. cbn [bind]. destruct d. reflexivity.
Qed.

(** ** Continuing columns *)
Lemma position_iff c labels : NoDup labels -> forall j, position c labels = Some j <-> nth_error labels j = Some c.
Proof.
  induction 1 as [|l ls N D IH]; intros j; cbn [position]; [split; [discriminate | destruct j; discriminate]|]. destruct (String.eqb_spec l c) as [->|NE].
  - split; [intros H; injection H as <-; reflexivity|]. destruct j as [|j]; [reflexivity|]. cbn [nth_error]. intros H. elim N. eapply nth_error_In. exact H.
  - destruct j as [|j]; cbn [nth_error]; [split; [destruct (position c ls); discriminate | intros H; congruence]|]. rewrite <- IH. destruct (position c ls); cbn [option_map]; [split; intros H; congruence | split; discriminate].
Qed.
Lemma alter_length f : forall row j, length (alter j f row) = length row.
Proof. induction row as [|v r IH]; intros [|j]; cbn [alter length]; congruence. Qed.
Lemma alter_nth f : forall row j k, nth_error (alter j f row) k = if (j =? k)%nat then option_map f (nth_error row k) else nth_error row k.
Proof. induction row as [|v r IH]; intros [|j] [|k]; try reflexivity; [change (S j =? S k)%nat with (j =? k)%nat; cbn [alter nth_error]; destruct (j =? k)%nat; reflexivity | cbn [alter nth_error]; exact (IH j k)]. Qed.
Lemma column_unique labels row c v v' : NoDup labels -> at_column labels row c v -> at_column labels row c v' -> v = v'.
Proof. intros D (j & A & B) (k & C & E). apply position_iff in A, C; try assumption. assert (j = k) by congruence. subst. congruence. Qed.

Lemma increments_spec labels1 labels d1 last1 : NoDup labels1 -> NoDup labels -> fst d1 = labels1 -> last_error (snd d1) = Some last1 -> forall cs d2 first2 rest d, NoDup cs -> d2 = (labels, first2 :: rest) -> increments d1 d2 cs = Ok d ->
  exists first2' rest', d = (labels, first2' :: rest') /\ Forall2 (continued cs labels1 labels last1 first2) (first2 :: rest) (first2' :: rest').
Proof.
  intros D1 D L1 LR. induction cs as [|c cs IH]; intros d2 first2 rest d NC -> H; cbn [increments] in H.
  - injection H as <-. exists first2, rest. split; [reflexivity|]. clear. induction (first2 :: rest) as [|r l IH]; constructor; [|exact IH]. split; [reflexivity|]. intros c v A. exists v. split; [exact A|]. split; [reflexivity|]. split; [reflexivity | intros x y []].
  - destruct (increment_one d1 (labels, first2 :: rest) c) as [d'|] eqn:I; [|discriminate H]. cbn [bind] in H. apply NoDup_cons_iff in NC as (NI & NC').
    unfold increment_one in I. cbn [fst snd hd_error] in I. rewrite L1, LR in I. destruct (position c labels) as [j|] eqn:P; [|discriminate I]. pose proof (proj1 (position_iff c labels D j) P) as PJ. destruct (position c labels1) as [i|] eqn:P1; [|discriminate I]. pose proof (proj1 (position_iff c labels1 D1 i) P1) as PI.
    destruct (nth_error first2 j) as [a|] eqn:X; [|discriminate I]. destruct (nth_error last1 i) as [b|] eqn:Y; [|discriminate I]. destruct (to_add a b) as [o|] eqn:T; [|discriminate I]. cbn [bind] in I. injection I as I.
    set (step := fun r : list cell => match o with Some y => alter j (plus y) r | None => r end).
    assert (ED : d' = (labels, step first2 :: map step rest)).
    { rewrite <- I. unfold step. destruct o; [reflexivity|]. rewrite map_id. reflexivity. }
    destruct (IH d' (step first2) (map step rest) d) as (f' & r' & -> & F); [assumption | exact ED | exact H|]. exists f', r'. split; [reflexivity|].
    change (step first2 :: map step rest) with (map step (first2 :: rest)) in F. remember (first2 :: rest) as old eqn:EO. clear EO. remember (f' :: r') as new eqn:EN. clear EN. clear H I ED IH rest f' r'.
    assert (SL : forall r, length (step r) = length r) by (intros r; unfold step; destruct o; [apply alter_length | reflexivity]).
    assert (SO : forall r c' v, c' <> c -> at_column labels r c' v -> at_column labels (step r) c' v).
    { intros r c' v NE (k & A & B). exists k. split; [exact A|]. unfold step. destruct o; [|exact B]. rewrite alter_nth. destruct (Nat.eqb_spec j k) as [->|]; [congruence | exact B]. }
    assert (SC : forall r v, at_column labels r c v -> at_column labels (step r) c (match o with Some y => plus y v | None => v end)).
    { intros r v (k & A & B). exists k. split; [exact A|]. assert (j = k) by (apply (position_iff c labels D) in A; congruence). subst k. unfold step. destruct o; [|exact B]. rewrite alter_nth, Nat.eqb_refl, B. reflexivity. }
    assert (UX : forall w, at_column labels first2 c w -> w = a) by (intros w W; eapply column_unique; [exact D | exact W | exists j; split; [exact PJ | exact X]]).
    assert (UY : forall w, at_column labels1 last1 c w -> w = b) by (intros w W; eapply column_unique; [exact D1 | exact W | exists i; split; [exact PI | exact Y]]).
    revert new F. induction old as [|r old IHo]; intros new F; inversion F as [|? new_r ? new' C F']; subst; constructor; [|apply IHo; exact F'].
    destruct C as (LN & C). split; [rewrite LN; apply SL|]. intros c' v A. destruct (string_dec c' c) as [->|NE].
    + destruct (C c _ (SC r v A)) as (v' & A' & C1 & _). exists v'. split; [exact A'|]. specialize (C1 NI). split; [intros N; elim N; left; reflexivity|].
      split; [intros [M|M]; [apply UX in M | apply UY in M]; subst; [destruct b | destruct a]; cbn [to_add] in T; try discriminate T; injection T as <-; reflexivity|].
      intros x y _ X' Y'. apply UX in X'. apply UY in Y'. rewrite <- X', <- Y' in T. cbn [to_add] in T. injection T as T. split.
      * intros LT. apply Proofs_Components.qlt_iff in LT. rewrite LT in T. rewrite <- T in C1. subst v'. split; [intros q ->; reflexivity|]. intros N. destruct v; try reflexivity. elim (N q eq_refl).
      * intros LE. destruct (Qlt_bool x y) eqn:B; [apply Proofs_Components.qlt_iff in B; lra | rewrite <- T in C1; exact C1].
    + destruct (C c' v (SO r c' v NE A)) as (v' & A' & C1 & CM & C2). exists v'. split; [exact A'|]. split; [intros N; apply C1; intros I; apply N; right; exact I|].
      split; [intros [M|M]; apply CM; [left; apply SO; assumption | right; exact M]|].
      intros x' y' [E|I] X' Y'; [congruence|]. apply (C2 x' y' I); [apply SO; assumption | exact Y'].
Qed.
Lemma by_label_self labels : NoDup labels -> forall row, length row = length labels -> map (by_label labels row) labels = row.
Proof.
  induction 1 as [|l ls N D IH]; intros [|v row] L; try discriminate L; [reflexivity|]. cbn [map by_label]. rewrite String.eqb_refl. f_equal. transitivity (map (by_label ls row) ls); [|apply IH; injection L as L; exact L]. apply map_ext_in. intros c I. destruct (String.eqb_spec l c) as [->|]; [contradiction | reflexivity].
Qed.
Lemma stack_same labels a b : NoDup labels -> Forall (fun r => length r = length labels) a -> Forall (fun r => length r = length labels) b -> stack (labels, a) (labels, b) = (labels, a ++ b).
Proof.
  intros D A B. unfold stack. cbn [fst snd]. assert (F : filter (fun c => negb (str_in c labels)) labels = []).
  { apply Proofs_Components.filter_none. intros c I. apply negb_false_iff. unfold str_in. apply existsb_exists. exists c. split; [exact I | apply String.eqb_refl]. }
  rewrite F, app_nil_r. f_equal. assert (G : forall l, Forall (fun r => length r = length labels) l -> map (fun r => map (by_label labels r) labels) l = l) by (induction 1 as [|r l L H IH]; [reflexivity|]; cbn [map]; rewrite by_label_self by assumption; rewrite IH; reflexivity).
  rewrite (G a A), (G b B). reflexivity.
Qed.
Lemma continued_lengths cs labels1 labels a b old new n : Forall2 (continued cs labels1 labels a b) old new -> Forall (fun r => length r = n) old -> Forall (fun r => length r = n) new.
Proof. induction 1 as [|o w old new (L & _) F IH]; intros H; [constructor|]. inversion H; subst. constructor; [exact L | apply IH; assumption]. Qed.

(** ** Frames with different labels *)
Lemma by_label_in labels : NoDup labels -> forall row c v, length row = length labels -> In c labels -> (by_label labels row c = v <-> at_column labels row c v).
Proof.
  unfold at_column. induction 1 as [|l ls N D IH]; intros [|x row] c v L I; try discriminate L; [destruct I|]. cbn [by_label]. destruct (String.eqb_spec l c) as [->|NE].
  - split; [intros <-; exists 0%nat; split; reflexivity|]. intros ([|j] & A & B); cbn [nth_error] in A, B; [congruence|]. elim N. eapply nth_error_In. exact A.
  - destruct I as [I|I]; [contradiction|]. rewrite (IH row c v) by (try assumption; injection L as L; exact L). split; [intros (j & A & B); exists (S j); split; assumption|].
    intros ([|j] & A & B); cbn [nth_error] in A, B; [congruence|]. exists j. split; assumption.
Qed.
Lemma by_label_out labels : forall row c, ~ In c labels -> by_label labels row c = Missing.
Proof. induction labels as [|l ls IH]; intros [|x row] c N; try reflexivity. cbn [by_label]. destruct (String.eqb_spec l c) as [->|]; [elim N; left; reflexivity | apply IH; intros I; apply N; right; exact I]. Qed.
Lemma placed_row labels labels' row : NoDup labels -> NoDup labels' -> length row = length labels -> placed labels labels' row (map (by_label labels row) labels').
Proof.
  intros D D' L. split; [apply map_length|]. intros c v.
  assert (E : at_column labels' (map (by_label labels row) labels') c v <-> In c labels' /\ by_label labels row c = v).
  { unfold at_column. split.
    - intros (j & A & B). rewrite nth_error_map, A in B. cbn [option_map] in B. split; [eapply nth_error_In; exact A | congruence].
    - intros (I & B). apply In_nth_error in I as (j & A). exists j. split; [exact A|]. rewrite nth_error_map, A. cbn [option_map]. congruence. }
  rewrite E. split; intros (I & B); (split; [exact I|]); destruct (in_dec string_dec c labels) as [J|J].
  - left. apply by_label_in; assumption.
  - right. split; [exact J|]. rewrite by_label_out in B by exact J. symmetry. exact B.
  - destruct B as [B|(B & _)]; [apply by_label_in; assumption | contradiction].
  - rewrite by_label_out by exact J. destruct B as [(j & A & _)|(_ & B)]; [elim J; eapply nth_error_In; exact A | symmetry; exact B].
Qed.
Lemma placed_rows labels labels' rows : NoDup labels -> NoDup labels' -> Forall (fun r => length r = length labels) rows -> Forall2 (placed labels labels') rows (map (fun r => map (by_label labels r) labels') rows).
Proof. intros D D'. induction 1 as [|r rows L F IH]; cbn [map]; constructor; [apply placed_row; assumption | exact IH]. Qed.
Lemma new_label l1 l2 c : In c (filter (fun c => negb (str_in c l1)) l2) <-> In c l2 /\ ~ In c l1.
Proof.
  rewrite filter_In. assert (E : str_in c l1 = true <-> In c l1) by (unfold str_in; rewrite existsb_exists; split; [intros (x & I & X); apply String.eqb_eq in X; congruence | intros I; exists c; split; [exact I | apply String.eqb_refl]]).
  rewrite negb_true_iff, <- not_true_iff_false, E. reflexivity.
Qed.
Lemma nodup_app (a b : list string) : NoDup a -> NoDup b -> (forall c, In c a -> ~ In c b) -> NoDup (a ++ b).
Proof. induction 1 as [|x l N D IH]; intros B H; [exact B|]. cbn [app]. constructor; [intros I; apply in_app_iff in I as [I|I]; [contradiction | exact (H x (or_introl eq_refl) I)] | apply IH; [exact B | intros c I; apply H; right; exact I]]. Qed.
