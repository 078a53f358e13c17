(** Proofs for C137-C139. *)
From Verif Require Import Py Num Model_Diagnostic Model_Structure Model_Summary Model_Waveform Model_Components Spec_Components.
From Verif Require Proofs_Diagnostic Proofs_Structure Proofs_Life Proofs_Waveform.
From Coq Require Import Sorting.Sorted Sorting.Permutation SetoidList SetoidPermutation Lqa.

(** ** Pivoting *)
Lemma chosen_in cycles frame r : In r (chosen cycles frame) <-> In r frame /\ p_type r = "discharge"%string /\ In (p_cycle r) cycles.
Proof.
  unfold chosen. rewrite filter_In, andb_true_iff, String.eqb_eq, existsb_exists. split; intros (A & B & C); (split; [exact A|]; split; [exact B|]).
  - destruct C as (c & D & E). apply Z.eqb_eq in E. subst. exact D.
  - exists (p_cycle r). split; [exact C | apply Z.eqb_refl].
Qed.
Lemma same_cell_iff a b : same_cell a b = true <-> p_cycle a = p_cycle b /\ p_x a == p_x b.
Proof. unfold same_cell. rewrite andb_true_iff, Z.eqb_eq, Qeq_bool_iff. reflexivity. Qed.
Lemma doubled_filter p : forall l, doubled (filter p l) = true <->
  exists i j a b, (i < j)%nat /\ nth_error l i = Some a /\ nth_error l j = Some b /\ p a = true /\ p b = true /\ same_cell a b = true.
Proof.
  induction l as [|z l IH]; [split; [discriminate | intros (i & j & a & b & _ & A & _); destruct i; discriminate A]|].
  assert (T : doubled (filter p l) = true -> exists i j a b, (i < j)%nat /\ nth_error (z :: l) i = Some a /\ nth_error (z :: l) j = Some b /\ p a = true /\ p b = true /\ same_cell a b = true).
  { intros D. apply IH in D as (i & j & a & b & L & A & B & R). exists (S i), (S j), a, b. split; [lia|]. split; [exact A|]. split; [exact B | exact R]. }
  split.
  - cbn [filter]. destruct (p z) eqn:P; [|exact T]. cbn [doubled]. rewrite orb_true_iff. intros [E|D]; [|apply T; exact D].
    apply existsb_exists in E as (b & I & SC). apply filter_In in I as (I & Q). apply In_nth_error in I as (j & J). exists 0%nat, (S j), z, b. split; [lia|]. split; [reflexivity|]. split; [exact J|]. split; [exact P|]. split; [exact Q | exact SC].
  - intros (i & j & a & b & L & A & B & PA & PB & S). destruct j as [|j]; [lia|]. cbn [nth_error] in B. destruct i as [|i]; cbn [nth_error] in A.
    + injection A as ->. cbn [filter]. rewrite PA. cbn [doubled]. apply orb_true_iff. left. apply existsb_exists. exists b. split; [|exact S]. apply filter_In. split; [eapply nth_error_In; exact B | exact PB].
    + assert (D : doubled (filter p l) = true) by (apply IH; exists i, j, a, b; split; [lia|]; split; [exact A|]; split; [exact B|]; split; [exact PA|]; split; [exact PB | exact S]).
      cbn [filter]. destruct (p z); [cbn [doubled]; rewrite D; apply orb_true_r | exact D].
Qed.
Lemma doubled_ambiguous cycles frame : doubled (chosen cycles frame) = true <-> ambiguous cycles frame.
Proof.
  unfold chosen. rewrite doubled_filter. split.
  - intros (i & j & a & b & L & A & B & PA & PB & S). apply same_cell_iff in S as (S1 & S2). rewrite andb_true_iff, String.eqb_eq, existsb_exists in PA, PB. destruct PA as (TA & c & C1 & C2), PB as (TB & _). apply Z.eqb_eq in C2. subst c.
    exists i, j, a, b. split; [lia|]. repeat split; assumption.
  - intros (i & j & a & b & L & A & B & TA & TB & C & I & X).
    assert (PA : forall r, p_type r = "discharge"%string -> p_cycle r = p_cycle a -> (p_type r =? "discharge")%string && existsb (Z.eqb (p_cycle r)) cycles = true).
    { intros r T E. rewrite T, E. cbn [andb]. apply existsb_exists. exists (p_cycle a). split; [exact I | apply Z.eqb_refl]. }
    destruct (Nat.lt_ge_cases i j).
    + exists i, j, a, b. repeat split; auto. apply same_cell_iff. split; assumption.
    + exists j, i, b, a. split; [lia|]. repeat split; auto. apply same_cell_iff. split; [symmetry; exact C | symmetry; exact X].
Qed.
Definition at_cell (c : Z) (x : Q) (r : prow) : bool := Z.eqb (p_cycle r) c && Qeq_bool (p_x r) x.
Lemma cell_found rows c x r : doubled rows = false -> In r rows -> p_cycle r = c -> p_x r == x -> cell rows c x = p_y r.
Proof.
  intros D I C X. unfold cell. change (fun r0 => (p_cycle r0 =? c)%Z && Qeq_bool (p_x r0) x) with (at_cell c x).
  induction rows as [|z l IH]; [destruct I|]. cbn [doubled] in D. apply orb_false_iff in D as (D1 & D2). cbn [find].
  destruct (at_cell c x z) eqn:P.
  - destruct I as [->|I]; [reflexivity|]. exfalso. unfold at_cell in P. apply andb_true_iff in P as (P1 & P2). apply Z.eqb_eq in P1. apply Qeq_bool_iff in P2.
    assert (E : existsb (same_cell z) l = true); [|congruence]. apply existsb_exists. exists r. split; [exact I|]. apply same_cell_iff. split; [congruence | rewrite P2, X; reflexivity].
  - destruct I as [->|I]; [|apply IH; assumption]. exfalso. unfold at_cell in P. rewrite C, Z.eqb_refl in P. apply Qeq_bool_neq in P. contradiction.
Qed.
Lemma cell_none rows c x : (forall r, In r rows -> p_cycle r = c -> ~ p_x r == x) -> cell rows c x = None.
Proof.
  intros H. unfold cell. destruct (find _ rows) as [r|] eqn:F; [|reflexivity]. apply find_some in F as (I & P). apply andb_true_iff in P as (P1 & P2). apply Z.eqb_eq in P1. apply Qeq_bool_iff in P2. elim (H r I P1 P2).
Qed.
Lemma qeqb_compat a b c : a == b -> Qeq_bool c a = Qeq_bool c b.
Proof. intros E. destruct (Qeq_bool c a) eqn:A, (Qeq_bool c b) eqn:B; try reflexivity; [apply Qeq_bool_iff in A; apply Qeq_bool_neq in B; elim B; rewrite A; exact E | apply Qeq_bool_iff in B; apply Qeq_bool_neq in A; elim A; rewrite B; symmetry; exact E]. Qed.
Lemma cell_compat rows c x y : x == y -> cell rows c x = cell rows c y.
Proof. intros E. unfold cell. induction rows as [|r l IH]; [reflexivity|]. cbn [find]. rewrite (qeqb_compat _ _ (p_x r) E). destruct (_ && _); [reflexivity | exact IH]. Qed.
Lemma at_label_compat cols : forall row x y, x == y -> at_label cols row x = at_label cols row y.
Proof. induction cols as [|c cols IH]; intros [|v row] x y E; try reflexivity. cbn [at_label]. rewrite (qeqb_compat _ _ c E). destruct (Qeq_bool c y); [reflexivity | apply IH; exact E]. Qed.
Lemma at_label_map (g : Q -> num) x : (forall y, y == x -> g y = g x) -> forall cols, (~ InA Qeq x cols -> g x = None) -> at_label cols (map g cols) x = g x.
Proof.
  intros C. induction cols as [|c cols IH]; intros N; cbn [at_label map]; [symmetry; apply N; intros H; inversion H|].
  destruct (Qeq_bool c x) eqn:E; [apply C; apply Qeq_bool_iff; exact E|]. apply IH. intros H. apply N. intros H'. apply Qeq_bool_neq in E. inversion H' as [? ? H1|? ? H1]; subst; [elim E; symmetry; exact H1 | elim H; exact H1].
Qed.
Lemma at_label_none cols : forall row x, ~ InA Qeq x cols -> at_label cols row x = None.
Proof.
  induction cols as [|c cols IH]; intros [|v row] x N; try reflexivity. cbn [at_label]. destruct (Qeq_bool c x) eqn:E; [elim N; left; symmetry; apply Qeq_bool_iff; exact E|]. apply IH. intros H. apply N. right. exact H.
Qed.
Lemma at_label_nth cols : forall row j x v, NoDupA Qeq cols -> nth_error cols j = Some x -> nth_error row j = Some v -> at_label cols row x = v.
Proof.
  induction cols as [|c cols IH]; intros row j x v D C V; [destruct j; discriminate C|]. destruct row as [|w row]; [destruct j; discriminate V|]. inversion D as [|? ? D1 D2]; subst. cbn [at_label]. destruct j as [|j]; cbn [nth_error] in C, V.
  - injection C as ->. injection V as ->. rewrite (proj2 (Qeq_bool_iff x x) (Qeq_refl x)). reflexivity.
  - destruct (Qeq_bool c x) eqn:E; [|eapply IH; eassumption]. exfalso. apply D1. apply Qeq_bool_iff in E. apply InA_alt. exists x. split; [exact E | eapply nth_error_In; exact C].
Qed.
Lemma distinct_q_in l x : InA Qeq x (distinct_q l) <-> InA Qeq x l.
Proof.
  induction l as [|y l IH]; [reflexivity|]. cbn [distinct_q]. split; intros H; inversion H as [? ? E|? ? E]; subst.
  - left. exact E.
  - right. apply IH. apply InA_alt in E as (z & E & I). apply filter_In in I as (I & _). apply InA_alt. exists z. split; assumption.
  - left. exact E.
  - destruct (Qeq_bool y x) eqn:B; [left; symmetry; apply Qeq_bool_iff; exact B|]. right. apply IH in E. apply InA_alt in E as (z & E & I). apply InA_alt. exists z. split; [exact E|]. apply filter_In. split; [exact I|]. rewrite <- (qeqb_compat _ _ y E), B. reflexivity.
Qed.
Lemma filter_nodupA p l : NoDupA Qeq l -> NoDupA Qeq (filter p l).
Proof.
  induction 1 as [|y l N D IH]; [constructor|]. cbn [filter]. destruct (p y); [|exact IH]. constructor; [|exact IH]. intros H. apply N. apply InA_alt in H as (z & E & I). apply filter_In in I as (I & _). apply InA_alt. exists z. split; assumption.
Qed.
Lemma distinct_q_nodup l : NoDupA Qeq (distinct_q l).
Proof.
  induction l as [|y l IH]; [constructor|]. cbn [distinct_q]. constructor; [|apply filter_nodupA; exact IH]. intros H. apply InA_alt in H as (z & E & I). apply filter_In in I as (_ & B). rewrite (proj2 (Qeq_bool_iff y z) E) in B. discriminate B.
Qed.
Lemma sort_q_nodup l : NoDupA Qeq l -> NoDupA Qeq (sort_q l).
Proof.
  intros D. apply (PermutationA_preserves_NoDupA _ (l₁ := l)); [|exact D]. apply Permutation_PermutationA; [exact _|]. symmetry. apply Proofs_Life.sort_q_perm.
Qed.
Lemma sort_q_in l x : InA Qeq x (sort_q l) <-> InA Qeq x l.
Proof. rewrite !InA_alt. split; intros (y & E & I); exists y; (split; [exact E|]); [eapply Permutation_in; [apply Proofs_Life.sort_q_perm | exact I] | eapply Permutation_in; [symmetry; apply Proofs_Life.sort_q_perm | exact I]]. Qed.

(** every row of the table, by label *)
Definition row_is (cycles : list Z) (cols : list Q) (k : list prow * Z) (row : list num) : Prop :=
  length row = length cols /\ forall x, at_label cols row x = cell (chosen cycles (fst k)) (snd k) x.
Definition cycles_in (cycles : list Z) (frame : list prow) : list Z := sort_z (uniq (map p_cycle (chosen cycles frame))).
Definition keys_of (cycles : list Z) (frames : list (list prow)) : list (list prow * Z) := flat_map (fun f => map (pair f) (cycles_in cycles f)) frames.
Definition labelled (cycles : list Z) (frames : list (list prow)) (x : Q) : Prop := exists f r, In f frames /\ In r (chosen cycles f) /\ p_x r == x.

Lemma pivot_spec cycles f t : pivot (chosen cycles f) = Ok t -> doubled (chosen cycles f) = false /\ NoDupA Qeq (fst t) /\ (forall x, InA Qeq x (fst t) <-> exists r, In r (chosen cycles f) /\ p_x r == x) /\
  Forall2 (row_is cycles (fst t)) (map (pair f) (cycles_in cycles f)) (snd t).
Proof.
  unfold pivot. destruct (doubled _) eqn:D; [discriminate|]. intros H. injection H as <-. cbn [fst snd]. split; [reflexivity|]. split; [apply sort_q_nodup, distinct_q_nodup|].
  assert (L : forall x, InA Qeq x (sort_q (distinct_q (map p_x (chosen cycles f)))) <-> exists r, In r (chosen cycles f) /\ p_x r == x).
  { intros x. rewrite sort_q_in, distinct_q_in, InA_alt. split.
    - intros (y & E & I). apply in_map_iff in I as (r & <- & I). exists r. split; [exact I | symmetry; exact E].
    - intros (r & I & E). exists (p_x r). split; [symmetry; exact E | apply in_map; exact I]. }
  split; [exact L|]. fold (cycles_in cycles f). induction (cycles_in cycles f) as [|c cs IH]; [constructor|]. cbn [map]. constructor; [|exact IH]. split; [apply map_length|].
  cbn [fst snd]. intros x. apply at_label_map; [intros y E; apply cell_compat; exact E|]. intros N. apply cell_none. intros r I _ E. apply N, L. exists r. split; assumption.
Qed.
Lemma concat_rows cycles c1 c2 cols ks rows : Forall2 (row_is cycles c1) ks rows -> (forall x, InA Qeq x c1 -> InA Qeq x cols) -> c2 = cols ->
  Forall2 (row_is cycles cols) ks (map (fun r => map (at_label c1 r) cols) rows).
Proof.
  intros F S ->. induction F as [|k row ks rows (L & A) F IH]; [constructor|]. cbn [map]. constructor; [|exact IH]. split; [apply map_length|]. intros x. rewrite <- A. apply at_label_map; [intros y E; apply at_label_compat; exact E|].
  intros N. apply at_label_none. intros H. apply N, S, H.
Qed.
Lemma concat_labels c1 c2 x : InA Qeq x (c1 ++ filter (fun y => negb (existsb (Qeq_bool y) c1)) c2) <-> InA Qeq x c1 \/ InA Qeq x c2.
Proof.
  rewrite InA_app_iff. split; intros [H|H]; [left; exact H | right | left; exact H|].
  - apply InA_alt in H as (z & E & I). apply filter_In in I as (I & _). apply InA_alt. exists z. split; assumption.
  - apply InA_alt in H as (z & E & I). destruct (existsb (Qeq_bool z) c1) eqn:B.
    + left. apply existsb_exists in B as (w & W & B). apply Qeq_bool_iff in B. apply InA_alt. exists w. split; [rewrite E; exact B | exact W].
    + right. apply InA_alt. exists z. split; [exact E|]. apply filter_In. split; [exact I | rewrite B; reflexivity].
Qed.
Lemma concat_nodup c1 c2 : NoDupA Qeq c1 -> NoDupA Qeq c2 -> NoDupA Qeq (c1 ++ filter (fun y => negb (existsb (Qeq_bool y) c1)) c2).
Proof.
  intros A B. apply NoDupA_app; [exact _ | exact A | apply filter_nodupA; exact B|]. intros x X Y. apply InA_alt in Y as (z & E & I). apply filter_In in I as (_ & I). apply InA_alt in X as (w & F & W).
  assert (T : existsb (Qeq_bool z) c1 = true); [|rewrite T in I; discriminate I]. apply existsb_exists. exists w. split; [exact W|]. apply Qeq_bool_iff. rewrite <- E. exact F.
Qed.
Lemma pivot_files_spec cycles : forall frames done acc t, NoDupA Qeq (fst acc) -> (forall x, InA Qeq x (fst acc) <-> labelled cycles done x) -> Forall2 (row_is cycles (fst acc)) (keys_of cycles done) (snd acc) ->
  pivot_files cycles frames acc = Ok t -> NoDupA Qeq (fst t) /\ (forall x, InA Qeq x (fst t) <-> labelled cycles (done ++ frames) x) /\ Forall2 (row_is cycles (fst t)) (keys_of cycles (done ++ frames)) (snd t) /\
  Forall (fun f => doubled (chosen cycles f) = false) frames.
Proof.
  induction frames as [|f frames IH]; intros done acc t D L R H; cbn [pivot_files] in H.
  - injection H as <-. rewrite app_nil_r. split; [exact D|]. split; [exact L|]. split; [exact R | constructor].
  - destruct (pivot (chosen cycles f)) as [u|] eqn:P; [|discriminate H]. cbn [bind] in H. destruct (pivot_spec cycles f u P) as (DB & D2 & L2 & R2).
    replace (done ++ f :: frames) with ((done ++ [f]) ++ frames) by (rewrite <- app_assoc; reflexivity).
    destruct (IH (done ++ [f]) (concat_tables acc u) t) as (A & B & C & E); [| | |exact H|split; [exact A|]; split; [exact B|]; split; [exact C | constructor; [exact DB | exact E]]].
    + unfold concat_tables. cbn [fst]. apply concat_nodup; assumption.
    + intros x. unfold concat_tables. cbn [fst]. rewrite concat_labels, L, L2. unfold labelled. split.
      * intros [(g & r & I & J)|(r & I)]; [exists g, r; split; [apply in_or_app; left; exact I | exact J] | exists f, r; split; [apply in_or_app; right; left; reflexivity | exact I]].
      * intros (g & r & I & J). apply in_app_or in I as [I|[<-|[]]]; [left; exists g, r; split; assumption | right; exists r; exact J].
    + unfold concat_tables. cbn [fst snd]. unfold keys_of. rewrite flat_map_app. cbn [flat_map]. rewrite app_nil_r. fold (keys_of cycles done).
      apply Forall2_app; (eapply concat_rows; [eassumption | | reflexivity]); intros x X; apply concat_labels; [left | right]; exact X.
Qed.
Lemma cycles_in_spec cycles f : rows_of_frame cycles f (cycles_in cycles f).
Proof.
  split; [apply Proofs_Structure.sort_z_strict, Proofs_Diagnostic.uniq_nodup|]. intros c. unfold cycles_in. rewrite Proofs_Structure.sort_z_in, Proofs_Diagnostic.uniq_in, in_map_iff. unfold has_cycle. split.
  - intros (r & <- & I). apply chosen_in in I as (I & T & C). split; [exact C|]. exists r. repeat split; assumption.
  - intros (C & r & I & T & <-). exists r. split; [reflexivity|]. apply chosen_in. repeat split; assumption.
Qed.
Lemma row_holds cycles cols f c row : NoDupA Qeq cols -> doubled (chosen cycles f) = false -> In c cycles -> row_is cycles cols (f, c) row -> holds cols f c row.
Proof.
  intros D B I (L & A). split; [exact L|]. intros j x v J V. pose proof (at_label_nth _ _ _ _ _ D J V) as E. rewrite A in E. cbn [fst snd] in E. subst v. split.
  - intros y (r & R & T & C & X & <-). apply cell_found; [exact B | apply chosen_in; subst c; repeat split; assumption | exact C | exact X].
  - intros N. apply cell_none. intros r R C X. apply chosen_in in R as (R & T & _). apply (N (p_y r)). exists r. repeat split; assumption.
Qed.
Lemma F2_impl {A B} (P Q : A -> B -> Prop) l l' : (forall a b, In a l -> P a b -> Q a b) -> Forall2 P l l' -> Forall2 Q l l'.
Proof. intros H F. induction F; constructor; [apply H; [left; reflexivity | assumption] | apply IHF; intros; apply H; [right|]; assumption]. Qed.

Theorem pivot_data_spec load d cycles t : pivot_data load d cycles = Ok t -> exists frames groups,
  mapM load (file_list d) = Ok frames /\ Forall2 (rows_of_frame cycles) frames groups /\
  Forall2 (fun k row => holds (fst t) (fst k) (snd k) row) (flat_map (fun '(f, cs) => map (pair f) cs) (combine frames groups)) (snd t) /\
  NoDupA Qeq (fst t) /\ (forall x, InA Qeq x (fst t) <-> exists f c y, In f frames /\ In c cycles /\ reads f c x y).
Proof.
  unfold pivot_data. destruct (mapM load (file_list d)) as [frames|]; [|discriminate]. cbn [bind]. intros H.
  destruct (pivot_files_spec cycles frames [] ([], []) t) as (D & L & R & B); [constructor | intros x; split; [intros X; inversion X | intros (f & r & [] & _)] | constructor | exact H|].
  cbn [app] in *. exists frames, (map (cycles_in cycles) frames). split; [reflexivity|]. split; [|split; [|split; [exact D|]]].
  - clear. induction frames; constructor; [apply cycles_in_spec | exact IHframes].
  - assert (E : flat_map (fun '(f, cs) => map (pair f) cs) (combine frames (map (cycles_in cycles) frames)) = keys_of cycles frames).
    { clear. unfold keys_of. induction frames as [|f r IH]; [reflexivity|]. cbn [map combine flat_map]. rewrite IH. reflexivity. }
    rewrite E. eapply F2_impl; [|exact R]. intros (f, c) row I X. unfold keys_of in I. apply in_flat_map in I as (g & G & I). apply in_map_iff in I as (c' & I1 & I2). injection I1 as -> ->. apply (row_holds cycles); [exact D | rewrite Forall_forall in B; apply B; exact G | | exact X].
    apply (proj2 (cycles_in_spec cycles f)) in I2. apply I2.
  - intros x. rewrite L. unfold labelled, reads. split.
    + intros (f & r & F & I & X). apply chosen_in in I as (I & T & C). exists f, (p_cycle r), (p_y r). split; [exact F|]. split; [exact C|]. exists r. repeat split; assumption.
    + intros (f & c & y & F & C & r & I & T & <- & X & _). exists f, r. split; [exact F|]. split; [apply chosen_in; repeat split; assumption | exact X].
Qed.
Lemma pivot_files_refused cycles : forall frames acc, (exists t, pivot_files cycles frames acc = Ok t) /\ Forall (fun f => ~ ambiguous cycles f) frames \/ pivot_files cycles frames acc = Err ValueError /\ Exists (ambiguous cycles) frames.
Proof.
  induction frames as [|f frames IH]; intros acc; cbn [pivot_files]; [left; split; [exists acc; reflexivity | constructor]|].
  unfold pivot at 1 2. destruct (doubled (chosen cycles f)) eqn:D.
  - right. split; [reflexivity | left; apply doubled_ambiguous; exact D].
  - cbn [bind]. destruct (IH (concat_tables acc (sort_q (distinct_q (map p_x (chosen cycles f))), map (fun c => map (cell (chosen cycles f) c) (sort_q (distinct_q (map p_x (chosen cycles f))))) (sort_z (uniq (map p_cycle (chosen cycles f))))))) as [(A & B)|(A & B)]; [left | right]; (split; [exact A|]).
    + constructor; [intros X; apply doubled_ambiguous in X; congruence | exact B].
    + right. exact B.
Qed.

(** ** Complete tables *)
Lemma all_some_iff {A} (l : list (option A)) : forall xs, all_some l = Some xs <-> l = map Some xs.
Proof.
  induction l as [|[a|] l IH]; intros xs; cbn [all_some].
  - split; [intros H; injection H as <-; reflexivity | destruct xs; [reflexivity | discriminate]].
  - destruct (all_some l) as [ys|] eqn:E; cbn [option_map]; split.
    + intros H. injection H as <-. cbn [map]. f_equal. apply IH. reflexivity.
    + intros H. destruct xs as [|x xs]; [discriminate H|]. injection H as -> H. apply IH in H. congruence.
    + discriminate.
    + intros H. destruct xs as [|x xs]; [discriminate H|]. injection H as -> H. apply IH in H. discriminate H.
  - split; [discriminate | destruct xs; discriminate].
Qed.
Lemma all_some_map {A} (xs : list A) : all_some (map Some xs) = Some xs.
Proof. apply all_some_iff. reflexivity. Qed.
Lemma all_rows (data : list (list num)) : forall rows, all_some (map all_some data) = Some rows <-> data = numbers rows.
Proof.
  intros rows. rewrite all_some_iff. unfold numbers. revert rows. induction data as [|r data IH]; intros [|x rows]; cbn [map]; try (split; [intros H; discriminate H | intros H; discriminate H]); [split; reflexivity|].
  split; intros H; injection H as H1 H2.
  - apply all_some_iff in H1. f_equal; [exact H1 | apply IH; exact H2].
  - f_equal; [apply all_some_iff; exact H1 | apply IH; exact H2].
Qed.
Lemma complete_iff w data rows : complete w data = Ok rows <-> rectangular w data rows.
Proof.
  unfold complete, rectangular. split.
  - destruct data as [|r0 data0] eqn:D; [discriminate|]. rewrite <- D. destruct (all_some (map all_some data)) as [q|] eqn:E; [|discriminate]. apply all_rows in E.
    destruct ((0 <? w)%nat && forallb (fun r => (length r =? w)%nat) q) eqn:B; [|discriminate]. intros H. injection H as <-. apply andb_true_iff in B as (B1 & B2). apply Nat.ltb_lt in B1. split; [exact E|]. split; [intros ->; rewrite E in D; discriminate D|]. split; [exact B1|].
    apply Forall_forall. intros r I. rewrite forallb_forall in B2. apply Nat.eqb_eq, B2, I.
  - intros (E & N & W & F). pose proof (proj2 (all_rows data rows) E) as A. destruct data as [|r0 data0] eqn:D; [destruct rows; [elim N; reflexivity | discriminate E]|]. rewrite <- D in *. rewrite A.
    assert (B : (0 <? w)%nat && forallb (fun r => (length r =? w)%nat) rows = true); [|rewrite B; reflexivity]. apply andb_true_iff. split; [apply Nat.ltb_lt; exact W|]. apply forallb_forall. intros r I. apply Nat.eqb_eq. rewrite Forall_forall in F. apply F, I.
Qed.
Lemma complete_err w data e : complete w data = Err e -> e = ValueError.
Proof. unfold complete. destruct data; [congruence|]. destruct (all_some _); [|congruence]. destruct (_ && _); congruence. Qed.
Lemma width_rect w data rows : rectangular w data rows -> width_of data = w.
Proof. intros (-> & N & _ & F). destruct rows as [|r rows]; [elim N; reflexivity|]. cbn [numbers map width_of]. rewrite map_length. inversion F. assumption. Qed.

(** ** Variance *)
Lemma first_above_some t l : forall acc k, first_above t acc l = Some k -> (k < length l)%nat /\ t < acc + qsum (firstn (S k) l) /\ forall i, (i < k)%nat -> acc + qsum (firstn (S i) l) <= t.
Proof.
  induction l as [|x l IH]; intros acc k H; [discriminate H|]. cbn [first_above] in H. destruct (Qlt_bool t (acc + x)) eqn:E.
  - injection H as <-. split; [cbn [length]; lia|]. split; [|intros i I; lia]. cbn [firstn qsum]. unfold Qlt_bool in E. apply negb_true_iff in E. assert (~ acc + x <= t) by (intros X; apply Qle_bool_iff in X; congruence). lra.
  - destruct (first_above t (acc + x) l) as [m|] eqn:F; [|discriminate H]. injection H as <-. destruct (IH _ _ F) as (A & B & C). split; [cbn [length]; lia|]. split; [change (firstn (S (S m)) (x :: l)) with (x :: firstn (S m) l); cbn [qsum]; lra|].
    unfold Qlt_bool in E. apply negb_false_iff, Qle_bool_iff in E. intros [|i] I; [cbn [firstn qsum]; lra|]. change (firstn (S (S i)) (x :: l)) with (x :: firstn (S i) l). cbn [qsum]. specialize (C i ltac:(lia)). lra.
Qed.
Lemma first_above_none t l : forall acc, first_above t acc l = None -> forall i, (i < length l)%nat -> acc + qsum (firstn (S i) l) <= t.
Proof.
  induction l as [|x l IH]; intros acc H i I; [cbn [length] in I; lia|]. cbn [first_above] in H. destruct (Qlt_bool t (acc + x)) eqn:E; [discriminate H|]. destruct (first_above t (acc + x) l) as [m|] eqn:F; [discriminate H|].
  unfold Qlt_bool in E. apply negb_false_iff, Qle_bool_iff in E. destruct i as [|i]; [cbn [firstn qsum]; lra|]. change (firstn (S (S i)) (x :: l)) with (x :: firstn (S i) l). cbn [qsum]. cbn [length] in I. specialize (IH _ F i ltac:(lia)). lra.
Qed.
Lemma qsum_firstn l : Forall (fun x => 0 <= x) l -> forall k, qsum (firstn k l) <= qsum l.
Proof.
  induction 1 as [|x l X F IH]; intros [|k]; cbn [firstn qsum]; try lra; [|specialize (IH k); lra].
  assert (P : 0 <= qsum l) by (clear IH; induction F; cbn [qsum]; lra). lra.
Qed.

(** ** Percentiles *)
Definition rank (n : nat) (p : Q) : Q := inject_Z (Z.of_nat (n - 1)) * (p / 100).
Lemma rank_within n p : 0 <= p -> p <= 100 -> 0 <= rank n p <= inject_Z (Z.of_nat (n - 1)).
Proof.
  intros A B. unfold rank. assert (Z0 : 0 <= inject_Z (Z.of_nat (n - 1))) by (change 0 with (inject_Z 0); rewrite <- Zle_Qle; lia). set (m := inject_Z _) in *.
  assert (P : 0 <= p / 100) by (apply Qle_shift_div_l; [reflexivity | lra]). assert (R : p / 100 <= 1) by (apply Qle_shift_div_r; [reflexivity | lra]). split; [apply Qmult_le_0_compat; assumption|]. nra.
Qed.
Lemma floor_rank n p : (0 < n)%nat -> 0 <= p -> p <= 100 -> exists k, Qfloor (rank n p) = Z.of_nat k /\ (k < n)%nat /\ 0 <= rank n p - inject_Z (Z.of_nat k) /\ rank n p - inject_Z (Z.of_nat k) < 1.
Proof.
  intros N A B. destruct (rank_within n p A B) as (L & H). pose proof (Qfloor_le (rank n p)) as F1. pose proof (Qlt_floor (rank n p)) as F2. rewrite inject_Z_plus in F2. change (inject_Z 1) with 1 in F2.
  assert (Z1 : (0 <= Qfloor (rank n p))%Z) by (change 0%Z with (Qfloor 0); apply Qfloor_resp_le; exact L).
  assert (Z2 : (Qfloor (rank n p) <= Z.of_nat (n - 1))%Z) by (rewrite Zle_Qle; lra).
  exists (Z.to_nat (Qfloor (rank n p))). rewrite Z2Nat.id by exact Z1. split; [reflexivity|]. split; [lia|]. split; lra.
Qed.
Lemma sorted_nth s : StronglySorted Qle s -> forall i j a b, (i <= j)%nat -> nth_error s i = Some a -> nth_error s j = Some b -> a <= b.
Proof.
  induction 1 as [|x s S IH F]; intros i j a b L A B; [destruct i; discriminate A|]. destruct i as [|i], j as [|j]; cbn [nth_error] in A, B; try lia.
  - injection A as <-. injection B as <-. apply Qle_refl.
  - injection A as <-. rewrite Forall_forall in F. apply F. eapply nth_error_In. exact B.
  - eapply (IH i j); [lia | exact A | exact B].
Qed.
(** the value, with its neighbours *)
Lemma percentile_value xs p : xs <> [] -> 0 <= p -> p <= 100 -> exists k a b v, let s := sort_q xs in let w := rank (length xs) p - inject_Z (Z.of_nat k) in
  percentile (map Some xs) p = Some v /\ (k < length xs)%nat /\ Qfloor (rank (length xs) p) = Z.of_nat k /\ 0 <= w /\ w < 1 /\ nth_error s k = Some a /\ nth (S k) s a = b /\ a <= b /\ v == a + (b - a) * w.
Proof.
  intros N A B. unfold percentile. rewrite all_some_map. assert (LS : length (sort_q xs) = length xs) by (apply Permutation_length, Proofs_Life.sort_q_perm). rewrite LS.
  fold (rank (length xs) p). destruct (floor_rank (length xs) p) as (k & F & K & W0 & W1); [destruct xs; [elim N; reflexivity | cbn [length]; lia] | exact A | exact B|].
  rewrite F, Nat2Z.id. destruct (nth_error (sort_q xs) k) as [a|] eqn:E; [|apply nth_error_None in E; lia].
  exists k, a, (nth (S k) (sort_q xs) a), (a + (nth (S k) (sort_q xs) a - a) * (rank (length xs) p - inject_Z (Z.of_nat k))). cbn zeta. split; [reflexivity|]. split; [exact K|]. split; [reflexivity|]. split; [exact W0|]. split; [exact W1|]. split; [exact E|]. split; [reflexivity|]. split; [|reflexivity].
  destruct (nth_error (sort_q xs) (S k)) as [b|] eqn:E2.
  - rewrite (nth_error_nth _ _ _ E2). apply (sorted_nth _ (Proofs_Life.sort_q_sorted xs) k (S k)); [lia | exact E | exact E2].
  - apply nth_error_None in E2. rewrite nth_overflow by exact E2. apply Qle_refl.
Qed.
Lemma percentile_is xs p : xs <> [] -> 0 <= p -> p <= 100 -> exists v, percentile (map Some xs) p = Some v /\ is_percentile p xs v.
Proof.
  intros N A B. destruct (percentile_value xs p N A B) as (k & a & b & v & P & K & F & W0 & W1 & E & NB & LE & V). exists v. split; [exact P|].
  assert (LS : length (sort_q xs) = length xs) by (apply Permutation_length, Proofs_Life.sort_q_perm).
  set (w := rank (length xs) p - inject_Z (Z.of_nat k)) in *. exists (sort_q xs), k, w. split; [apply Proofs_Life.sort_q_perm|]. split; [apply Proofs_Life.sort_q_sorted|]. split; [rewrite LS; exact K|]. split; [exact W0|]. split; [exact W1|].
  assert (NN : inject_Z (Z.of_nat (length xs - 1)) == inject_Z (Z.of_nat (length xs)) - 1).
  { rewrite Nat2Z.inj_sub by (destruct xs; [elim N; reflexivity | cbn [length]; lia]). unfold Zminus. rewrite inject_Z_plus. reflexivity. }
  split; [unfold w, rank; rewrite NN; ring|]. rewrite V. rewrite (nth_error_nth _ _ 0 E). destruct (Nat.lt_ge_cases (S k) (length xs)) as [L|L].
  - rewrite (nth_indep _ 0 a) by (rewrite LS; exact L). rewrite NB. ring.
  - rewrite nth_overflow in NB by (rewrite LS; exact L). rewrite nth_overflow by (rewrite LS; exact L). subst b.
    assert (Z0 : w == 0); [|rewrite Z0; ring]. destruct (rank_within (length xs) p A B) as (_ & R). assert (k = length xs - 1)%nat by lia. subst k. unfold w in *. lra.
Qed.
Lemma filter_perm {A} (f : A -> bool) l l' : Permutation l l' -> length (filter f l) = length (filter f l').
Proof. induction 1; cbn [filter]; try congruence; [destruct (f x); cbn [length]; congruence | destruct (f x), (f y); reflexivity]. Qed.
Lemma filter_none {A} (f : A -> bool) l : (forall x, In x l -> f x = false) -> filter f l = [].
Proof. induction l as [|x l IH]; intros H; [reflexivity|]. cbn [filter]. rewrite (H x (or_introl eq_refl)). apply IH. intros y I. apply H. right. exact I. Qed.
Lemma filter_le {A} (f : A -> bool) l : (length (filter f l) <= length l)%nat.
Proof. induction l; cbn [filter]; [lia|]. destruct (f a); cbn [length]; lia. Qed.
Lemma in_nth_firstn {A} (l : list A) k x : In x (firstn k l) -> exists i, (i < k)%nat /\ nth_error l i = Some x.
Proof.
  revert k. induction l as [|y l IH]; intros [|k] I; try (destruct I; fail). cbn [firstn] in I. destruct I as [->|I]; [exists 0%nat; split; [lia | reflexivity]|].
  destruct (IH k I) as (i & L & E). exists (S i). split; [lia | exact E].
Qed.
Lemma in_nth_skipn {A} (l : list A) : forall k x, In x (skipn k l) -> exists i, (k <= i)%nat /\ nth_error l i = Some x.
Proof.
  induction l as [|y l IH]; intros [|k] x I; try (destruct I; fail); cbn [skipn] in I; [apply In_nth_error in I as (i & E); exists i; split; [lia | exact E]|].
  destruct (IH k x I) as (i & L & E). exists (S i). split; [lia | exact E].
Qed.
Lemma percentile_share xs p v : xs <> [] -> 0 <= p -> p <= 100 -> percentile (map Some xs) p = Some v ->
  inject_Z (Z.of_nat (greater v xs)) < inject_Z (Z.of_nat (length xs)) - p / 100 * (inject_Z (Z.of_nat (length xs)) - 1) /\
  inject_Z (Z.of_nat (smaller v xs)) < p / 100 * (inject_Z (Z.of_nat (length xs)) - 1) + 1.
Proof.
  intros N A B H. destruct (percentile_value xs p N A B) as (k & a & b & v' & P & K & F & W0 & W1 & E & NB & LE & V). rewrite H in P. injection P as <-.
  set (s := sort_q xs) in *. assert (PS : Permutation s xs) by apply Proofs_Life.sort_q_perm. assert (LS : length s = length xs) by (apply Permutation_length; exact PS). assert (SS : StronglySorted Qle s) by apply Proofs_Life.sort_q_sorted.
  assert (NN : inject_Z (Z.of_nat (length xs - 1)) == inject_Z (Z.of_nat (length xs)) - 1).
  { rewrite Nat2Z.inj_sub by (destruct xs; [elim N; reflexivity | cbn [length]; lia]). unfold Zminus. rewrite inject_Z_plus. reflexivity. }
  assert (RK : rank (length xs) p == p / 100 * (inject_Z (Z.of_nat (length xs)) - 1)) by (unfold rank; rewrite NN; ring). rewrite <- RK. set (h := rank (length xs) p) in *.
  assert (AV : a <= v) by (rewrite V; nra). assert (VB : v <= b) by (rewrite V; nra).
  split.
  - unfold greater. rewrite <- (filter_perm (Qlt_bool v) s xs PS). rewrite <- (firstn_skipn (S k) s), filter_app, filter_none.
    + cbn [app]. pose proof (filter_le (Qlt_bool v) (skipn (S k) s)) as FL. rewrite skipn_length, LS in FL. assert (Z.of_nat (length (filter (Qlt_bool v) (skipn (S k) s))) <= Z.of_nat (length xs) - Z.of_nat k - 1)%Z as X by lia.
      rewrite Zle_Qle in X. unfold Zminus in X. rewrite !inject_Z_plus, !inject_Z_opp in X. change (inject_Z 1) with 1 in X. lra.
    + intros x I. apply in_nth_firstn in I as (i & L & I). assert (x <= a) by (apply (sorted_nth s SS i k); [lia | exact I | exact E]). unfold Qlt_bool. apply negb_false_iff, Qle_bool_iff. lra.
  - unfold smaller. rewrite <- (filter_perm (fun x => Qlt_bool x v) s xs PS).
    destruct (Qlt_le_dec 0 (h - inject_Z (Z.of_nat k))) as [W|W].
    + rewrite <- (firstn_skipn (S k) s), filter_app, (filter_none _ (skipn (S k) s)).
      * rewrite app_nil_r. pose proof (filter_le (fun x => Qlt_bool x v) (firstn (S k) s)) as FL. rewrite firstn_length in FL. assert (Z.of_nat (length (filter (fun x => Qlt_bool x v) (firstn (S k) s))) <= Z.of_nat k + 1)%Z as X by lia.
        rewrite Zle_Qle, inject_Z_plus in X. change (inject_Z 1) with 1 in X. lra.
      * intros x I. apply in_nth_skipn in I as (i & L & I). destruct (nth_error s (S k)) as [b'|] eqn:E2; [|apply nth_error_None in E2; assert (i < length s)%nat by (apply nth_error_Some; congruence); lia].
        rewrite (nth_error_nth _ _ _ E2) in NB. subst b'. assert (b <= x) by (apply (sorted_nth s SS (S k) i); [exact L | exact E2 | exact I]). unfold Qlt_bool. apply negb_false_iff, Qle_bool_iff. lra.
    + rewrite <- (firstn_skipn k s), filter_app, (filter_none _ (skipn k s)).
      * rewrite app_nil_r. pose proof (filter_le (fun x => Qlt_bool x v) (firstn k s)) as FL. rewrite firstn_length in FL. assert (Z.of_nat (length (filter (fun x => Qlt_bool x v) (firstn k s))) <= Z.of_nat k)%Z as X by lia.
        rewrite Zle_Qle in X. lra.
      * intros x I. apply in_nth_skipn in I as (i & L & I). assert (a <= x) by (apply (sorted_nth s SS k i); [exact L | exact E | exact I]). unfold Qlt_bool. apply negb_false_iff, Qle_bool_iff. rewrite V. assert (Z0 : h - inject_Z (Z.of_nat k) == 0) by lra. rewrite Z0. lra.
Qed.
Lemma percentile_mono xs p q v w : xs <> [] -> 0 <= p -> p <= q -> q <= 100 -> percentile (map Some xs) p = Some v -> percentile (map Some xs) q = Some w -> v <= w.
Proof.
  intros N A PQ B HP HQ. destruct (percentile_value xs p N A ltac:(lra)) as (k & a & b & v' & P & K & F & W0 & W1 & E & NB & LE & V). rewrite HP in P. injection P as <-.
  destruct (percentile_value xs q N ltac:(lra) B) as (k2 & a2 & b2 & w' & P2 & K2 & F2 & W02 & W12 & E2 & NB2 & LE2 & V2). rewrite HQ in P2. injection P2 as <-.
  set (s := sort_q xs) in *. assert (LS : length s = length xs) by (apply Permutation_length, Proofs_Life.sort_q_perm). assert (SS : StronglySorted Qle s) by apply Proofs_Life.sort_q_sorted.
  assert (RR : rank (length xs) p <= rank (length xs) q).
  { unfold rank. rewrite !(Qmult_comm (inject_Z _)). apply Qmult_le_compat_r; [|change 0 with (inject_Z 0); rewrite <- Zle_Qle; lia]. apply Qle_shift_div_l; [reflexivity|]. setoid_replace (p / 100 * 100) with p by field. exact PQ. }
  assert (KK : (k <= k2)%nat) by (pose proof (Qfloor_resp_le _ _ RR); lia). destruct (Nat.eq_dec k k2) as [->|NE].
  - rewrite E in E2. injection E2 as <-. rewrite NB in NB2. subst b2. rewrite V, V2. nra.
  - assert (b <= a2).
    { destruct (nth_error s (S k)) as [b'|] eqn:E3; [|apply nth_error_None in E3; lia]. rewrite (nth_error_nth _ _ _ E3) in NB. subst b'. apply (sorted_nth s SS (S k) k2); [lia | exact E3 | exact E2]. }
    rewrite V, V2. nra.
Qed.

(** ** Whitening *)
Section Monotone.
  Variable f : Q -> Q.
  Hypothesis M : forall x y, Qle_bool (f x) (f y) = Qle_bool x y.
  Lemma insert_map x l : insert_q (f x) (map f l) = map f (insert_q x l).
  Proof. induction l as [|y l IH]; [reflexivity|]. cbn [map insert_q]. rewrite M. destruct (Qle_bool x y); [reflexivity|]. cbn [map]. f_equal. exact IH. Qed.
  Lemma sort_map l : sort_q (map f l) = map f (sort_q l).
  Proof. induction l as [|x l IH]; [reflexivity|]. cbn [map sort_q]. rewrite IH. apply insert_map. Qed.
End Monotone.
Lemma white_le m s x y : 0 < s -> Qle_bool ((x - m) / s) ((y - m) / s) = Qle_bool x y.
Proof.
  intros P. destruct (Qle_bool x y) eqn:E.
  - apply Qle_bool_iff. apply Qle_bool_iff in E. unfold Qdiv. apply Qmult_le_compat_r; [lra | apply Qlt_le_weak, Qinv_lt_0_compat; exact P].
  - destruct (Qle_bool ((x - m) / s) ((y - m) / s)) eqn:F; [|reflexivity]. apply Qle_bool_iff in F. assert (x <= y); [|apply Qle_bool_iff in H; congruence].
    assert (G : (x - m) / s * s <= (y - m) / s * s) by (apply Qmult_le_compat_r; [exact F | lra]). rewrite !(Qmult_comm (_ / s)), !Qmult_div_r in G by lra. lra.
Qed.
Lemma percentile_white m s xs p : 0 < s -> xs <> [] -> 0 <= p -> p <= 100 -> exists v w, percentile (map Some xs) p = Some v /\ percentile (map (whiten m s) xs) p = Some w /\ w == (v - m) / s.
Proof.
  intros P N A B. destruct (percentile_value xs p N A B) as (k & a & b & v & PV & K & F & W0 & W1 & E & NB & LE & V). exists v.
  assert (WE : map (whiten m s) xs = map Some (map (fun x => (x - m) / s) xs)).
  { rewrite map_map. apply map_ext. intros x. unfold whiten. destruct (Qeq_bool s 0) eqn:Z0; [apply Qeq_bool_iff in Z0; lra | reflexivity]. }
  rewrite WE. unfold percentile at 2. rewrite all_some_map, (sort_map (fun x => (x - m) / s)) by (intros; apply white_le; exact P). rewrite map_length.
  assert (LS : length (sort_q xs) = length xs) by (apply Permutation_length, Proofs_Life.sort_q_perm). rewrite LS. fold (rank (length xs) p). rewrite F, Nat2Z.id, nth_error_map, E. cbn [option_map].
  eexists. split; [exact PV|]. split; [reflexivity|]. rewrite V. rewrite (map_nth (fun x => (x - m) / s)). rewrite NB. field. lra.
Qed.
Lemma median_white m s xs : 0 < s -> xs <> [] -> exists v w, median (map Some xs) = Some v /\ median (map (whiten m s) xs) = Some w /\ w == (v - m) / s.
Proof.
  intros P N. assert (WE : map (whiten m s) xs = map Some (map (fun x => (x - m) / s) xs)).
  { rewrite map_map. apply map_ext. intros x. unfold whiten. destruct (Qeq_bool s 0) eqn:Z0; [apply Qeq_bool_iff in Z0; lra | reflexivity]. }
  rewrite WE. unfold median. rewrite !all_some_map, (sort_map (fun x => (x - m) / s)) by (intros; apply white_le; exact P). rewrite map_length, !nth_error_map.
  assert (LS : length (sort_q xs) = length xs) by (apply Permutation_length, Proofs_Life.sort_q_perm). assert (L0 : (0 < length xs)%nat) by (destruct xs; [elim N; reflexivity | cbn [length]; lia]).
  destruct (nth_error (sort_q xs) (length (sort_q xs) / 2)) as [a|] eqn:E1; [|apply nth_error_None in E1; rewrite LS in E1; pose proof (Nat.div_lt (length xs) 2 L0 ltac:(lia)); lia].
  destruct (nth_error (sort_q xs) ((length (sort_q xs) - 1) / 2)) as [b|] eqn:E2; [|apply nth_error_None in E2; rewrite LS in E2; pose proof (Nat.div_le_mono (length xs - 1) (length xs) 2 ltac:(lia) ltac:(lia)); pose proof (Nat.div_lt (length xs) 2 L0 ltac:(lia)); lia].
  cbn [option_map]. eexists _, _. split; [reflexivity|]. split; [reflexivity|]. field. lra.
Qed.

(** ** Fitting and outliers *)
Lemma qlt_iff a b : Qlt_bool a b = true <-> a < b.
Proof. unfold Qlt_bool. rewrite negb_true_iff. split; [intros H; apply Qnot_le_lt; intros X; apply Qle_bool_iff in X; congruence | intros H; destruct (Qle_bool b a) eqn:E; [apply Qle_bool_iff in E; lra | reflexivity]]. Qed.
Section Fit.
  Variables scale unscale : list (list Q) -> list Q -> list Q.
  Variables project unproject : nat -> list (list Q) -> list Q -> list Q.
  Variable ratios : nat -> list (list Q) -> list Q.
  Notation fit := (principal_components scale unscale project unproject ratios).
  Notation embedding := (embed scale project).

  Lemma fit_ok n t data f : fit n t data = Ok f -> exists w rows k, rectangular w data rows /\ (n <= length rows)%nat /\ (n <= w)%nat /\ first_above t 0 (ratios n (map (scale rows) rows)) = Some k /\
    f = {| f_data := rows; f_n := n; f_min := S k; f_embeddings := map (embedding n rows) rows; f_errors := map (row_error scale unscale project unproject n rows) rows |}.
  Proof.
    unfold principal_components. destruct (complete (width_of data) data) as [rows|] eqn:C; [|discriminate]. cbn [bind]. apply complete_iff in C. destruct (Nat.ltb_spec (Nat.min (length rows) (width_of data)) n) as [|L]; [discriminate|].
    destruct (first_above _ _ _) as [k|] eqn:A; [|discriminate]. intros H. injection H as <-. exists (width_of data), rows, k. split; [exact C|]. split; [lia|]. split; [lia|]. split; [exact A | reflexivity].
  Qed.
  Lemma fit_err n t data e : fit n t data = Err e -> e = ValueError /\
    ((forall w rows, ~ rectangular w data rows) \/ exists w rows, rectangular w data rows /\ ((Nat.min (length rows) w < n)%nat \/ forall k, (1 <= k <= length (ratios n (map (scale rows) rows)))%nat -> explained k (ratios n (map (scale rows) rows)) <= t)).
  Proof.
    unfold principal_components. destruct (complete (width_of data) data) as [rows|e0] eqn:C; cbn [bind].
    - apply complete_iff in C. destruct (Nat.ltb_spec (Nat.min (length rows) (width_of data)) n) as [L|L].
      + intros H. injection H as <-. split; [reflexivity|]. right. exists (width_of data), rows. split; [exact C | left; exact L].
      + destruct (first_above _ _ _) as [k|] eqn:A; [discriminate|]. intros H. injection H as <-. split; [reflexivity|]. right. exists (width_of data), rows. split; [exact C|]. right. intros [|k] K; [lia|].
        pose proof (first_above_none _ _ _ A k ltac:(lia)). unfold explained. lra.
    - intros H. injection H as <-. split; [eapply complete_err; exact C|]. left. intros w rows R. pose proof (width_rect _ _ _ R) as W. subst w. apply complete_iff in R. congruence.
  Qed.
  Lemma fit_defined n t w data rows k : rectangular w data rows -> (n <= length rows)%nat -> (n <= w)%nat -> (1 <= k <= length (ratios n (map (scale rows) rows)))%nat -> t < explained k (ratios n (map (scale rows) rows)) ->
    exists f, fit n t data = Ok f.
  Proof.
    intros R L W K T. unfold principal_components. pose proof (width_rect _ _ _ R) as WD. rewrite WD. rewrite (proj2 (complete_iff _ _ _) R). cbn [bind]. destruct (Nat.ltb_spec (Nat.min (length rows) w) n); [lia|].
    destruct (first_above _ _ _) as [m|] eqn:A; [eexists; reflexivity|]. exfalso. destruct k as [|k]; [lia|]. pose proof (first_above_none _ _ _ A k ltac:(lia)). unfold explained in T. lra.
  Qed.

  Lemma column_not_empty n t data f j : fit n t data = Ok f -> column j (f_embeddings f) <> [].
  Proof. intros H. apply fit_ok in H as (w & rows & k & (_ & N & _) & _ & _ & _ & ->). cbn [f_embeddings]. destruct rows; [elim N; reflexivity | discriminate]. Qed.
  Lemma rows_for_fit n t data f new : fit n t data = Ok f -> rows_for f new = complete (width_of data) new.
  Proof. intros H. apply fit_ok in H as (w & rows & k & R & _ & _ & _ & ->). unfold rows_for. cbn [f_data]. rewrite (width_rect _ _ _ R). destruct R as (_ & N & _ & F). destruct rows as [|r rows]; [elim N; reflexivity|]. inversion F. congruence. Qed.
  Lemma training_rows n t data f : fit n t data = Ok f -> rows_for f data = Ok (f_data f).
  Proof. intros H. rewrite (rows_for_fit _ _ _ _ _ H). apply fit_ok in H as (w & rows & k & R & _ & _ & _ & ->). cbn [f_data]. rewrite (width_rect _ _ _ R). apply complete_iff. exact R. Qed.

End Fit.
Section Component.
  Variable std : list Q -> Q.
  (** one component decides as if it had not been whitened *)
  Lemma component_above f j p v x : column j (f_embeddings f) <> [] -> 0 <= std (column j (f_embeddings f)) -> 0 <= p -> p <= 100 -> percentile (map Some (column j (f_embeddings f))) p = Some v ->
    (above (white std f j x) (percentile (white_column std f j) p) = true <-> ~ std (column j (f_embeddings f)) == 0 /\ v < x) /\
    (above (percentile (white_column std f j) p) (white std f j x) = true <-> ~ std (column j (f_embeddings f)) == 0 /\ x < v).
  Proof.
    intros N S0 A B P. unfold white_column, white. set (xs := column j (f_embeddings f)) in *. set (m := average xs). set (s := std xs) in *. change (map (fun x => whiten m s x) xs) with (map (whiten m s) xs). destruct (Qeq_bool s 0) eqn:Z0.
    - assert (W : forall y, whiten m s y = None) by (intros y; unfold whiten; rewrite Z0; reflexivity). rewrite W. apply Qeq_bool_iff in Z0. split; (split; [|intros (X & _); contradiction]); [intros H; cbn [above] in H; discriminate H | destruct (percentile (map (whiten m s) xs) p); intros H; cbn [above] in H; discriminate H].
    - assert (SN : ~ s == 0) by (apply Qeq_bool_neq; exact Z0). assert (SP : 0 < s) by (destruct (Qlt_le_dec 0 s); [assumption | elim SN; apply Qle_antisym; assumption]).
      destruct (percentile_white m s xs p SP N A B) as (v' & w & E1 & E2 & E3). rewrite P in E1. injection E1 as <-. rewrite E2. unfold whiten. rewrite Z0. cbn [above].
      assert (C : forall y, Qlt_bool w ((y - m) / s) = Qlt_bool v y).
      { intros y. unfold Qlt_bool. f_equal. rewrite <- (white_le m s y v SP). destruct (Qle_bool ((y - m) / s) w) eqn:X, (Qle_bool ((y - m) / s) ((v - m) / s)) eqn:Y; try reflexivity; exfalso.
        - apply Qle_bool_iff in X. rewrite E3 in X. apply Qle_bool_iff in X. congruence.
        - apply Qle_bool_iff in Y. rewrite <- E3 in Y. apply Qle_bool_iff in Y. congruence. }
      assert (C2 : forall y, Qlt_bool ((y - m) / s) w = Qlt_bool y v).
      { intros y. unfold Qlt_bool. f_equal. rewrite <- (white_le m s v y SP). destruct (Qle_bool w ((y - m) / s)) eqn:X, (Qle_bool ((v - m) / s) ((y - m) / s)) eqn:Y; try reflexivity; exfalso.
        - apply Qle_bool_iff in X. rewrite E3 in X. apply Qle_bool_iff in X. congruence.
        - apply Qle_bool_iff in Y. rewrite <- E3 in Y. apply Qle_bool_iff in Y. congruence. }
      rewrite C, C2, !qlt_iff. split; (split; [intros H; split; [exact SN | exact H] | intros (_ & H); exact H]).
  Qed.
  Lemma flagged_iff f up lo (u l : nat -> Q) e : measures_spread std -> 0 <= up -> up <= 100 -> 0 <= lo -> lo <= 100 -> (forall j, column j (f_embeddings f) <> []) ->
    (forall j, percentile (map Some (column j (f_embeddings f))) up = Some (u j)) -> (forall j, percentile (map Some (column j (f_embeddings f))) lo = Some (l j)) ->
    (flagged std f up lo e = true <-> exists j, (j < f_n f)%nat /\ ~ std (column j (f_embeddings f)) == 0 /\ (u j < nth j e 0 \/ nth j e 0 < l j)).
  Proof.
    intros MS A B C D N U L. unfold flagged. rewrite orb_true_iff, !existsb_exists. split.
    - intros [(j & J & H)|(j & J & H)]; apply in_seq in J; exists j; (split; [lia|]).
      + apply (component_above f j up (u j) _ (N j) (MS _) A B (U j)) in H as (H1 & H2). split; [exact H1 | left; exact H2].
      + apply (component_above f j lo (l j) _ (N j) (MS _) C D (L j)) in H as (H1 & H2). split; [exact H1 | right; exact H2].
    - intros (j & J & S0 & [H|H]); [left | right]; exists j; (split; [apply in_seq; lia|]).
      + apply (component_above f j up (u j) _ (N j) (MS _) A B (U j)). split; assumption.
      + apply (component_above f j lo (l j) _ (N j) (MS _) C D (L j)). split; assumption.
  Qed.
End Component.
Definition limit (f : fitted) (p : Q) (j : nat) : Q := match percentile (map Some (column j (f_embeddings f))) p with Some v => v | None => 0 end.
Lemma limit_is f p j : column j (f_embeddings f) <> [] -> 0 <= p -> p <= 100 -> percentile (map Some (column j (f_embeddings f))) p = Some (limit f p j) /\ is_percentile p (column j (f_embeddings f)) (limit f p j).
  Proof. intros N A B. unfold limit. destruct (percentile_is _ p N A B) as (v & -> & H). split; [reflexivity | exact H]. Qed.
Lemma outliers_ok std root scale project f new up lo ds flags : decomposition_outliers std root scale project f new up lo = Ok (ds, flags) ->
    (0 <= up <= 100) /\ (0 <= lo <= 100) /\ exists es, get_pca_embeddings scale project f new = Ok es /\ ds = map (distance std root f) es /\ flags = map (flagged std f up lo) es.
  Proof.
    unfold decomposition_outliers. destruct (Qle_bool 0 up && Qle_bool up 100 && Qle_bool 0 lo && Qle_bool lo 100) eqn:B; [|discriminate]. cbn [negb]. rewrite !andb_true_iff, !Qle_bool_iff in B. destruct B as (((B1 & B2) & B3) & B4).
    destruct (get_pca_embeddings scale project f new) as [es|]; [|discriminate]. cbn [bind]. intros H. injection H as <- <-. split; [split; assumption|]. split; [split; assumption|]. exists es. repeat split.
  Qed.
Lemma distance_is std root f e : (forall j, column j (f_embeddings f) <> []) -> (forall j, (j < f_n f)%nat -> 0 < std (column j (f_embeddings f))) ->
    exists mids q, (forall j, median (map Some (column j (f_embeddings f))) = Some (mids j)) /\ distance std root f e = Some (root q) /\
      q == qsum (map (fun j => ((nth j e 0 - mids j) / std (column j (f_embeddings f))) * ((nth j e 0 - mids j) / std (column j (f_embeddings f)))) (seq 0 (f_n f))).
  Proof.
    intros N S0. set (mids := fun j => match median (map Some (column j (f_embeddings f))) with Some v => v | None => 0 end).
    assert (MM : forall j, median (map Some (column j (f_embeddings f))) = Some (mids j)).
    { intros j. unfold mids. destruct (median_white 0 1 (column j (f_embeddings f)) eq_refl (N j)) as (v & _ & -> & _). reflexivity. }
    exists mids. unfold distance.
    assert (G : forall js, (forall j, In j js -> (j < f_n f)%nat) -> exists ds, all_some (map (fun j => nsub (white std f j (nth j e 0)) (median (white_column std f j))) js) = Some ds /\
      qsum (map (fun d => d * d) ds) == qsum (map (fun j => ((nth j e 0 - mids j) / std (column j (f_embeddings f))) * ((nth j e 0 - mids j) / std (column j (f_embeddings f)))) js)).
    { induction js as [|j js IH]; intros J; [exists []; split; reflexivity|]. destruct (IH (fun k K => J k (or_intror K))) as (ds & D1 & D2). specialize (S0 j (J j (or_introl eq_refl))). specialize (MM j). set (xs := column j (f_embeddings f)) in *.
      destruct (median_white (average xs) (std xs) xs S0 (N j)) as (v & w & E1 & E2 & E3). rewrite MM in E1. injection E1 as <-. cbn [map]. unfold white_column, white. fold xs. change (map (fun x => whiten (average xs) (std xs) x) xs) with (map (whiten (average xs) (std xs)) xs). rewrite E2.
      unfold whiten at 1. destruct (Qeq_bool (std xs) 0) eqn:Z0; [apply Qeq_bool_iff in Z0; lra|]. cbn [nsub all_some]. unfold white_column, white in D1. rewrite D1. cbn [option_map]. eexists. split; [reflexivity|]. cbn [map qsum]. rewrite D2, E3. apply Qplus_comp; [field; lra | reflexivity]. }
    destruct (G (seq 0 (f_n f))) as (ds & D1 & D2); [intros j J; apply in_seq in J; lia|]. rewrite D1. cbn [option_map]. eexists. split; [exact MM|]. split; [reflexivity | exact D2].
  Qed.

Lemma mean_error_pos a b : 0 <= mean_error a b.
  Proof.
    unfold mean_error, average. set (l := map _ _). assert (P : 0 <= qsum l).
    { unfold l. clear l. revert b. induction a as [|x a IH]; intros [|y b]; cbn [combine map qsum]; try lra. pose proof (Qabs_nonneg (x - y)). specialize (IH b). lra. }
    destruct (length l) as [|n] eqn:E; [change (inject_Z (Z.of_nat 0)) with 0; unfold Qdiv; change (/ 0) with 0; lra|]. apply Qle_shift_div_l; [change 0 with (inject_Z 0); rewrite <- Zlt_Qlt; lia | lra].
  Qed.
Lemma reconstruction_ok scale unscale project unproject f new thr errs flags : reconstruction_outliers scale unscale project unproject f new thr = Ok (errs, flags) ->
    exists rows m, rows_for f new = Ok rows /\ is_max m (f_errors f) /\ errs = map (row_error scale unscale project unproject (f_n f) (f_data f)) rows /\ Forall2 (fun e b => b = true <-> m * thr < e) errs flags.
  Proof.
    unfold reconstruction_outliers. destruct (rows_for f new) as [rows|]; [|discriminate]. cbn [bind]. destruct (f_errors f) as [|x r] eqn:E; [discriminate|]. intros H. injection H as <- <-. exists rows, (largest x r). split; [reflexivity|]. split; [|split; [reflexivity|]].
    - destruct (Proofs_Waveform.largest_spec r x) as (A & B & C). split; [destruct C as [->|C]; [left; reflexivity | right; exact C]|]. intros y [<-|Y]; [exact A | apply B; exact Y].
    - set (l := map _ rows). induction l as [|e l IH]; [constructor|]. cbn [map]. constructor; [apply qlt_iff | exact IH].
  Qed.
