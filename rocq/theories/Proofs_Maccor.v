(** Lemmas for C18 and C19. *)
From Verif Require Import Py Num Model_Maccor Spec_Maccor Proofs_Strings.

(** ** C19 *)
Lemma only_first a f b : only_there a f b -> first_at a f b.
Proof. intros H p q E. rewrite (H p q E). lia. Qed.
Lemma only_no_more a f b : f <> ""%string -> only_there a f b -> contains f b = false.
Proof.
  intros NE H. destruct (contains f b) eqn:C; [|reflexivity].
  apply Proofs_Diagnostic.contains_iff in C. destruct C as (x & y & ->).
  specialize (H (a ++ f ++ x)%string y). rewrite !app_assoc_s in H. specialize (H eq_refl).
  assert (L : String.length (a ++ f ++ x) = String.length a) by congruence.
  rewrite !app_length_s in L. destruct f; [contradiction|simpl in L; lia].
Qed.
Lemma split2_ok a f b : f <> ""%string -> only_there a f b -> split2 (a ++ f ++ b) f = Ok (a, b).
Proof.
  intros NE H. unfold split2. destruct (String.eqb_spec f ""); [contradiction|].
  rewrite str_split_first by (auto using only_first). rewrite str_split_none by (eapply only_no_more; eauto). reflexivity.
Qed.
Lemma split2_inv s f a b : split2 s f = Ok (a, b) ->
  s = (a ++ f ++ b)%string /\ contains f a = false /\ contains f b = false.
Proof.
  unfold split2. destruct (String.eqb_spec f ""); [discriminate|].
  destruct (str_split f s) as [|x [|y [|z l]]] eqn:E; try discriminate. intro H. injection H as -> ->.
  pose proof (join_split f s n) as J. rewrite E in J. simpl in J. split; [auto|].
  split; eapply split_pieces; eauto; rewrite E; simpl; auto.
Qed.
Lemma split_rest_ok : forall fvs v, unambiguous v fvs ->
  split_rest (header v fvs) (map fst fvs) = Ok (v :: map snd fvs).
Proof.
  induction fvs as [|[f w] fvs IH]; intros v H; simpl in *; [reflexivity|].
  destruct H as (NE & O & U). rewrite split2_ok by auto. simpl. rewrite IH by exact U. reflexivity.
Qed.
Lemma fields_recovered pre fvs : fvs <> [] -> unambiguous pre fvs ->
  split_string_by_fields (header pre fvs) (map fst fvs) = Ok (map snd fvs).
Proof.
  destruct fvs as [|[f v] fvs]; [contradiction|]. intros _ (NE & O & U). simpl.
  rewrite split2_ok by auto. simpl. apply split_rest_ok. exact U.
Qed.
Lemma split_rest_inv : forall fs s vs, split_rest s fs = Ok vs ->
  exists v ws, vs = v :: ws /\ length ws = length fs /\ s = header v (combine fs ws) /\ once_each v (combine fs ws).
Proof.
  induction fs as [|f fs IH]; intros s vs H; simpl in H.
  - injection H as <-. exists s, []. simpl. auto.
  - destruct (split2 s f) as [[a b]|] eqn:E; [|discriminate]. simpl in H.
    destruct (split_rest b fs) as [r|] eqn:E2; [|discriminate]. simpl in H. injection H as <-.
    destruct (IH _ _ E2) as (v & ws & -> & L & Hb & U). exists a, (v :: ws). simpl.
    destruct (split2_inv _ _ _ _ E) as (-> & C1 & C2). rewrite <- Hb. repeat split; auto; lia.
Qed.
Lemma fields_sound s fields vs : split_string_by_fields s fields = Ok vs ->
  exists pre, length vs = length fields /\ s = header pre (combine fields vs) /\ once_each pre (combine fields vs).
Proof.
  unfold split_string_by_fields. destruct fields as [|f fs]; [discriminate|].
  destruct (split2 s f) as [[a b]|] eqn:E; [|discriminate]. simpl. intro H.
  destruct (split_rest_inv _ _ _ H) as (v & ws & -> & L & Hb & U).
  destruct (split2_inv _ _ _ _ E) as (-> & C1 & C2). exists a. simpl. rewrite <- Hb. repeat split; auto; lia.
Qed.
(** Every field occurs exactly once in what is left when it is its turn. *)
Lemma fields_once : forall fs s vs, split_rest s fs = Ok vs -> forall f fs1 fs2, fs = fs1 ++ f :: fs2 -> contains f s = true.
Proof.
  induction fs as [|g fs IH]; intros s vs H f fs1 fs2 E; [destruct fs1; discriminate|]. simpl in H.
  destruct (split2 s g) as [[a b]|] eqn:E1; [|discriminate]. simpl in H.
  destruct (split_rest b fs) as [r|] eqn:E2; [|discriminate]. destruct (split2_inv _ _ _ _ E1) as (-> & _).
  destruct fs1 as [|x fs1]; simpl in E; injection E as <- ->.
  - apply Proofs_Diagnostic.contains_iff. eauto.
  - specialize (IH _ _ E2 f fs1 fs2 eq_refl). apply Proofs_Diagnostic.contains_iff in IH. destruct IH as (x & y & ->).
    apply Proofs_Diagnostic.contains_iff. exists (a ++ g ++ x)%string, y. rewrite !app_assoc_s. reflexivity.
Qed.
Lemma missing_field_raises s fields f : In f fields -> contains f s = false ->
  forall vs, split_string_by_fields s fields <> Ok vs.
Proof.
  intros I C vs H. apply in_split in I. destruct I as (l1 & l2 & ->).
  unfold split_string_by_fields in H. destruct l1 as [|g l1]; simpl in H.
  - destruct (split2 s f) as [[a b]|] eqn:E; [|discriminate]. destruct (split2_inv _ _ _ _ E) as (-> & _).
    assert (contains f (a ++ f ++ b) = true) by (apply Proofs_Diagnostic.contains_iff; eauto). congruence.
  - destruct (split2 s g) as [[a b]|] eqn:E; [|discriminate]. simpl in H. destruct (split2_inv _ _ _ _ E) as (-> & _).
    pose proof (fields_once _ _ _ H f l1 l2 eq_refl) as K. apply Proofs_Diagnostic.contains_iff in K. destruct K as (x & y & ->).
    assert (contains f (a ++ g ++ x ++ f ++ y) = true); [|congruence].
    apply Proofs_Diagnostic.contains_iff. exists (a ++ g ++ x)%string, y. rewrite !app_assoc_s. reflexivity.
Qed.
Lemma repeated_first_raises a f b c fs :
  forall vs, split_string_by_fields (a ++ f ++ b ++ f ++ c) (f :: fs) <> Ok vs.
Proof.
  intros vs H. unfold split_string_by_fields, split2 in H. destruct (String.eqb_spec f ""); [discriminate|].
  set (s := (a ++ f ++ b ++ f ++ c)%string) in *.
  assert (C : contains f s = true) by (apply Proofs_Diagnostic.contains_iff; exists a, (b ++ f ++ c)%string; reflexivity).
  destruct (first_exists _ _ C) as (x & y & E & F). rewrite E in H. rewrite str_split_first in H by auto.
  assert (L : (String.length x <= String.length a)%nat) by (apply (F a (b ++ f ++ c)%string); rewrite <- E; reflexivity).
  assert (S2 : ((x ++ f) ++ y = (a ++ f ++ b) ++ f ++ c)%string) by (rewrite !app_assoc_s, <- E; reflexivity).
  destruct (app_split_le _ _ _ _ S2) as (g & _ & ->); [rewrite !app_length_s; lia|].
  assert (C2 : contains f (g ++ f ++ c) = true) by (apply Proofs_Diagnostic.contains_iff; eauto).
  destruct (first_exists _ _ C2) as (x2 & y2 & E2 & F2). rewrite E2, str_split_first in H by auto.
  destruct (str_split f y2) eqn:E3; [exact (str_split_nonempty _ _ E3)|discriminate].
Qed.

(** ** C18 *)
Definition endb (rows : list mrec) (k : nat) : bool :=
  match nth_error rows k, nth_error rows (S k) with
  | Some r, Some r' => end_code (mc_es r) && negb (Z.eqb (mc_step r) (mc_step r'))
  | _, _ => false
  end.
Definition chgb (rows : list mrec) (k : nat) : bool :=
  match nth_error rows k, nth_error rows (S k) with
  | Some r, Some r' => negb (Z.eqb (mc_cycle r) (mc_cycle r'))
  | _, _ => false
  end.
Lemma filter_seq_shift (f g : nat -> bool) : (forall k, g k = f (S k)) -> forall n s, map S (filter g (seq s n)) = filter f (seq (S s) n).
Proof.
  intros E. induction n as [|n IH]; intro s; [reflexivity|]. cbn [seq filter]. rewrite E.
  destruct (f (S s)); cbn [map]; rewrite IH; reflexivity.
Qed.
Lemma end_inds_spec rows : forall i, end_inds i rows = map (fun k => (i + k)%nat) (filter (endb rows) (seq 0 (length rows))).
Proof.
  induction rows as [|r rows IH]; intro i; [reflexivity|].
  assert (SH : map (fun k => (i + k)%nat) (filter (endb (r :: rows)) (seq 1 (length rows))) =
               map (fun k => (S i + k)%nat) (filter (endb rows) (seq 0 (length rows)))).
  { rewrite <- (filter_seq_shift (endb (r :: rows)) (endb rows)) by reflexivity. rewrite map_map.
    apply map_ext. intro. lia. }
  cbn [length seq filter]. unfold endb at 1. cbn [nth_error].
  destruct rows as [|r' rows].
  - reflexivity.
  - change (end_inds i (r :: r' :: rows)) with
      (if end_code (mc_es r) && negb (Z.eqb (mc_step r) (mc_step r')) then i :: end_inds (S i) (r' :: rows) else end_inds (S i) (r' :: rows)).
    cbn [nth_error]. destruct (end_code (mc_es r) && negb (Z.eqb (mc_step r) (mc_step r'))).
    + cbn [map]. rewrite SH, IH. f_equal. lia.
    + rewrite SH, IH. reflexivity.
Qed.
Lemma fold_filter {A B} (f : A -> B -> A) (p : B -> bool) l : forall s,
  fold_left f (filter p l) s = fold_left (fun s x => if p x then f s x else s) l s.
Proof. induction l as [|x l IH]; intro s; simpl; [reflexivity|]. destruct (p x); simpl; apply IH. Qed.
Lemma add_slice_length l : forall i b e s, length (add_slice i b e s l) = length l.
Proof. induction l; intros; simpl; auto. Qed.
Lemma add_slice_nth l : forall i b e s k, (k < length l)%nat ->
  nth k (add_slice i b e s l) 0 = if (b <=? i + k)%nat && (i + k <? e)%nat then nth k l 0 + s else nth k l 0.
Proof.
  induction l as [|x l IH]; intros i b e s k H; [simpl in H; lia|]. destruct k as [|k].
  - simpl. rewrite Nat.add_0_r. reflexivity.
  - simpl. rewrite IH by (simpl in H; lia). replace (S i + k)%nat with (i + S k)%nat by lia. reflexivity.
Qed.

Section Loop.
  Variable rows : list mrec.
  Variable v : list Q.
  Hypothesis LEN : length v = length rows.
  Fixpoint carry (i : nat) : Q :=
    match i with
    | O => 0
    | S j => if endb rows j then (if chgb rows j then 0 else carry j + nth j v 0) else carry j
    end.
  Definition stepf (s : list Q * Q * nat) (k : nat) := if endb rows k then loop_step rows s k else s.
  (** Invariant before position [k] is considered. *)
  Definition inv (k : nat) (st : list Q * Q * nat) : Prop :=
    let '(q, sum, b) := st in
    length q = length v /\
    ((b = 1%nat /\ sum = 0 /\ q = v /\ (forall j, (j <= k)%nat -> carry j = 0) /\ (forall j, (j < k)%nat -> endb rows j = false)) \/
     (exists a, b = S a /\ (a < k)%nat /\ endb rows a = true /\
        (forall j, (j <= a)%nat -> nth j q 0 == carry j + nth j v 0) /\
        (forall j, (a < j)%nat -> nth j q 0 = nth j v 0) /\
        sum == carry a + nth a v 0 /\
        (forall j, (a < j <= k)%nat -> carry j = carry (S a)) /\ (forall j, (a < j < k)%nat -> endb rows j = false))).
  Lemma endb_len k : endb rows k = true -> (S k < length rows)%nat.
  Proof.
    unfold endb. destruct (nth_error rows k); [|discriminate]. destruct (nth_error rows (S k)) eqn:E; [|discriminate].
    intros _. apply nth_error_Some. congruence.
  Qed.
  Lemma inv_step k st : (k < length rows)%nat -> inv k st -> inv (S k) (stepf st k).
  Proof.
    intros LK I. destruct st as [[q sum] b]. unfold stepf. destruct I as [LQ I].
    destruct (endb rows k) eqn:E.
    - unfold loop_step.
      fold (nth k (add_slice 0 b (k + 1) 0 q) 0).
      assert (CH : match nth_error rows (b - 1) with
                   | Some r => match nth_error rows b with Some r' => negb (Z.eqb (mc_cycle r) (mc_cycle r')) | None => false end
                   | None => false end = match b with O => false | S a => chgb rows a end \/ b = O).
      { destruct b; [right; reflexivity|left]. simpl. rewrite Nat.sub_0_r. reflexivity. }
      destruct I as [(-> & -> & -> & C & NB)|(a & -> & LA & EA & I1 & I2 & I3 & I4 & NB)].
      + destruct CH as [CH|CH]; [|discriminate]. rewrite CH.
        set (s0 := if chgb rows 0 then 0 else 0). assert (s0 = 0) by (unfold s0; destruct (chgb rows 0); reflexivity).
        assert (N : forall j, (j <= k)%nat -> nth j (add_slice 0 1 (k + 1) s0 v) 0 == carry j + nth j v 0).
        { intros j Lj. rewrite add_slice_nth by lia. rewrite (C j Lj), H. destruct (_ && _); ring. }
        split; [rewrite add_slice_length; reflexivity|]. right. exists k. split; [lia|]. split; [lia|]. split; [exact E|].
        split; [exact N|]. split; [|split; [apply N; lia|split; [|intros; lia]]].
        * intros j Lj. destruct (Nat.lt_ge_cases j (length v)) as [LV|LV].
          -- rewrite add_slice_nth by exact LV. destruct (Nat.leb_spec 1 (0 + j)), (Nat.ltb_spec (0 + j) (k + 1)); simpl; try lia; reflexivity.
          -- rewrite !nth_overflow; auto. rewrite add_slice_length. exact LV.
        * intros j Lj. replace j with (S k) by lia. reflexivity.
      + destruct CH as [CH|CH]; [|discriminate]. rewrite CH.
        set (s0 := if chgb rows a then 0 else sum).
        assert (S0 : s0 == carry (S a)).
        { unfold s0. cbn [carry]. rewrite EA. destruct (chgb rows a); [reflexivity|exact I3]. }
        assert (N : forall j, (j <= k)%nat -> nth j (add_slice 0 (S a) (k + 1) s0 q) 0 == carry j + nth j v 0).
        { intros j Lj. rewrite add_slice_nth by lia.
          destruct (Nat.leb_spec (S a) (0 + j)), (Nat.ltb_spec (0 + j) (k + 1)); simpl; try lia.
          - rewrite I2 by lia. rewrite (I4 j) by lia. rewrite S0. ring.
          - apply I1. lia. }
        split; [rewrite add_slice_length; exact LQ|]. right. exists k. split; [lia|]. split; [lia|]. split; [exact E|].
        split; [exact N|]. split; [|split; [apply N; lia|split; [|intros; lia]]].
        * intros j Lj. destruct (Nat.lt_ge_cases j (length v)) as [LV|LV].
          -- rewrite add_slice_nth by lia. destruct (Nat.leb_spec (S a) (0 + j)), (Nat.ltb_spec (0 + j) (k + 1)); simpl; try lia; apply I2; lia.
          -- rewrite !nth_overflow; auto. rewrite add_slice_length. lia.
        * intros j Lj. replace j with (S k) by lia. reflexivity.
    - split; [exact LQ|]. destruct I as [(-> & -> & -> & C & NB)|(a & -> & LA & EA & I1 & I2 & I3 & I4 & NB)].
      + left. split; [auto|]. split; [auto|]. split; [auto|]. split.
        * intros j Lj. destruct (Nat.eq_dec j (S k)) as [->|N]; [|apply C; lia].
          cbn [carry]. rewrite E. apply C. lia.
        * intros j Lj. destruct (Nat.eq_dec j k) as [->|N]; [exact E|apply NB; lia].
      + right. exists a. split; [reflexivity|]. split; [lia|]. split; [exact EA|]. split; [exact I1|]. split; [exact I2|]. split; [exact I3|]. split.
        * intros j Lj. destruct (Nat.eq_dec j (S k)) as [->|N]; [|apply I4; lia].
          assert (CE : carry (S k) = carry k) by (cbn [carry]; rewrite E; reflexivity). rewrite CE.
          destruct (Nat.eq_dec k a) as [->|N2]; [congruence|]. apply I4. lia.
        * intros j Lj. destruct (Nat.eq_dec j k) as [->|N]; [exact E|apply NB; lia].
  Qed.
  Lemma inv_fold n : (n <= length rows)%nat -> inv n (fold_left stepf (seq 0 n) (v, 0, 1%nat)).
  Proof.
    induction n as [|n IH]; intro L.
    - simpl. split; [reflexivity|]. left. split; [auto|]. split; [auto|]. split; [auto|]. split; [|intros; lia]. intros j Lj. replace j with O by lia. reflexivity.
    - rewrite seq_S, fold_left_app. cbn [fold_left]. rewrite Nat.add_0_l. apply inv_step; [lia|]. apply IH. lia.
  Qed.
End Loop.

Section Result.
  Variable rows : list mrec.
  Variables (qy : quantity) (d : direction).
  Notation v := (step_values qy d rows).
  Lemma step_values_length : length v = length rows.
  Proof. unfold step_values. destruct (existsb _ _); apply map_length. Qed.
  (** [quantity_sum] through the invariant: either no step ends, or [a] is the
      last end. *)
  Lemma quantity_sum_spec :
    (quantity_sum qy d rows = v /\ (forall j, (j < length rows)%nat -> endb rows j = false)) \/
    exists a, endb rows a = true /\ (forall j, endb rows j = true -> (j <= a)%nat) /\
      length (quantity_sum qy d rows) = length rows /\
      (forall j, (j <= a)%nat -> nth j (quantity_sum qy d rows) 0 == carry rows v j + nth j v 0) /\
      (forall j, (a < j < length rows)%nat -> nth j (quantity_sum qy d rows) 0 == (carry rows v a + nth a v 0) + nth j v 0).
  Proof.
    unfold quantity_sum. pose proof (end_inds_spec rows 0) as EI.
    assert (EI' : end_inds 0 rows = filter (endb rows) (seq 0 (length rows))).
    { rewrite EI. rewrite <- (map_id (filter _ _)) at 2. apply map_ext. reflexivity. }
    clear EI. rewrite EI'.
    destruct (filter (endb rows) (seq 0 (length rows))) as [|e es] eqn:EF.
    - left. split; [reflexivity|]. intros j Lj. destruct (endb rows j) eqn:E; [|reflexivity].
      assert (I : In j (filter (endb rows) (seq 0 (length rows)))) by (apply filter_In; split; [apply in_seq; lia|exact E]).
      rewrite EF in I. destruct I.
    - right. rewrite <- EF. rewrite fold_filter.
      pose proof (inv_fold rows v step_values_length (length rows) (le_n _)) as I.
      unfold stepf in I.
      destruct (fold_left (fun s x => if endb rows x then loop_step rows s x else s) (seq 0 (length rows)) (v, 0, 1%nat)) as [[q sum] b].
      destruct I as [LQ I]. pose proof step_values_length as LV.
      destruct I as [(-> & -> & -> & C & NB)|(a & -> & LA & EA & I1 & I2 & I3 & I4 & NB)].
      + exfalso.
        assert (Ie : In e (filter (endb rows) (seq 0 (length rows)))) by (rewrite EF; simpl; auto).
        apply filter_In in Ie. destruct Ie as [Ie Ee]. apply in_seq in Ie. rewrite NB in Ee by lia. discriminate.
      + exists a. split; [exact EA|]. split; [|split; [|split]].
        * intros j Ej. pose proof (endb_len _ _ Ej). destruct (Nat.le_gt_cases j a) as [K|K]; [exact K|].
          rewrite NB in Ej by lia. discriminate.
        * rewrite add_slice_length. lia.
        * intros j Lj. rewrite add_slice_nth by lia. destruct (Nat.leb_spec (S a) (0 + j)); simpl; [lia|]. apply I1. exact Lj.
        * intros j Lj. rewrite add_slice_nth by lia.
          destruct (Nat.leb_spec (S a) (0 + j)), (Nat.ltb_spec (0 + j) (length v)); simpl; try lia.
          rewrite I2 by lia. rewrite I3. ring.
  Qed.

  (** ** Specification side *)
  Lemma endb_iff k : endb rows k = true <-> finishes_step rows k.
  Proof.
    unfold endb, finishes_step, end_code. split.
    - destruct (nth_error rows k) as [r|]; [|discriminate]. destruct (nth_error rows (S k)) as [r'|]; [|discriminate].
      intro H. apply andb_prop in H. destruct H as [H1 H2]. apply andb_prop in H1. destruct H1 as [H1 H3].
      apply negb_true_iff, Z.eqb_neq in H2. exists r, r'. repeat split; auto; apply Z.leb_le; assumption.
    - intros (r & r' & -> & -> & [H1 H2] & N). apply andb_true_intro. split.
      + apply andb_true_intro. split; apply Z.leb_le; assumption.
      + apply negb_true_iff, Z.eqb_neq. exact N.
  Qed.
  Lemma chgb_iff k : (S k < length rows)%nat -> (chgb rows k = false <-> one_cycle rows k (S k)).
  Proof.
    intro L. unfold chgb, one_cycle.
    destruct (nth_error rows k) as [r|] eqn:E1; [|apply nth_error_None in E1; lia].
    destruct (nth_error rows (S k)) as [r'|] eqn:E2; [|apply nth_error_None in E2; lia].
    rewrite negb_false_iff, Z.eqb_eq. split.
    - intros H j a b Lj Ja Jb. try rewrite E2 in Jb. injection Jb as <-.
      assert (j = k \/ j = S k) as [->| ->] by lia; rewrite ?E1, ?E2 in Ja; injection Ja as <-; auto.
    - intros H. apply (H k); auto.
  Qed.
  Lemma completed_carry : cycles_end_with_steps rows -> forall i, (i < length rows)%nat ->
    exists t, completed rows v i t /\ t == carry rows v i.
  Proof.
    intros CE i. induction i as [|i IH]; intro L.
    - exists 0. split; [constructor|reflexivity].
    - destruct IH as (t & Ht & Et); [lia|]. cbn [carry].
      destruct (chgb rows i) eqn:C.
      + assert (NC : ~ one_cycle rows i (S i)) by (intro K; apply chgb_iff in K; [congruence|exact L]).
        exists 0. split; [apply completed_new_cycle; exact NC|].
        assert (F : finishes_step rows i).
        { unfold chgb in C. destruct (nth_error rows i) as [r|] eqn:E1; [|discriminate].
          destruct (nth_error rows (S i)) as [r'|] eqn:E2; [|discriminate].
          apply (CE i r r' E1 E2). apply negb_true_iff, Z.eqb_neq in C. exact C. }
        apply endb_iff in F. rewrite F. reflexivity.
      + assert (OC : one_cycle rows i (S i)) by (apply chgb_iff; auto).
        destruct (endb rows i) eqn:E.
        * destruct (nth_error v i) as [x|] eqn:EV; [|apply nth_error_None in EV; rewrite step_values_length in EV; lia].
          exists (t + x). split; [apply completed_step; auto; apply endb_iff; exact E|].
          rewrite (nth_error_nth _ _ _ EV). rewrite Et. reflexivity.
        * exists t. split; [|exact Et]. apply completed_inside; auto. intro K. apply endb_iff in K. congruence.
  Qed.
  Lemma counter_is q' d' r : wf_value q' d' r = waveform_counter q' d' r.
  Proof. destruct q', d'; reflexivity. Qed.
  Lemma letter_is d' : state_code d' = letter d'.
  Proof. destruct d'; reflexivity. Qed.
  Lemma contributes_all : Forall2 (contributes rows qy d) rows v.
  Proof.
    unfold step_values. destruct (existsb (fun r => is_num (mc_wf_chg_cap r)) rows) eqn:W.
    - assert (EX : exists r', In r' rows /\ mc_wf_chg_cap r' <> None).
      { apply existsb_exists in W. destruct W as (r & I & K). exists r. split; [exact I|]. destruct (mc_wf_chg_cap r); [discriminate|discriminate K]. }
      clear W. assert (G : forall l, Forall2 (contributes rows qy d) l (map (fun r => match wf_value qy d r with Some x => x | None => plain_value qy d r end) l)).
      { induction l as [|r l IH]; constructor; auto. destruct (wf_value qy d r) as [x|] eqn:E; rewrite counter_is in E.
        - apply contributes_wf; auto.
        - unfold plain_value. rewrite letter_is. destruct (String.eqb_spec (mc_state r) (letter d)).
          + apply contributes_plain; auto.
          + apply contributes_zero; auto. }
      apply G.
    - assert (EX : ~ exists r', In r' rows /\ mc_wf_chg_cap r' <> None).
      { intros (r & I & K). assert (existsb (fun r => is_num (mc_wf_chg_cap r)) rows = true); [|congruence].
        apply existsb_exists. exists r. split; [exact I|]. destruct (mc_wf_chg_cap r); [reflexivity|congruence]. }
      clear W. assert (G : forall l, Forall2 (contributes rows qy d) l (map (plain_value qy d) l)).
      { induction l as [|r l IH]; constructor; auto. unfold plain_value. rewrite letter_is. destruct (String.eqb_spec (mc_state r) (letter d)).
        - apply contributes_plain; auto.
        - apply contributes_zero; auto. }
      apply G.
  Qed.
  Lemma quantity_sum_length : length (quantity_sum qy d rows) = length rows.
  Proof. destruct quantity_sum_spec as [(-> & _)|(a & _ & _ & L & _)]; [apply step_values_length|exact L]. Qed.
  Lemma carry_no_end i : (i <= length rows)%nat -> (forall j, (j < length rows)%nat -> endb rows j = false) -> carry rows v i = 0.
  Proof. intros L H. induction i as [|i IH]; [reflexivity|]. cbn [carry]. rewrite H by lia. apply IH. lia. Qed.
  Lemma carry_tail a i : endb rows a = true -> (forall j, endb rows j = true -> (j <= a)%nat) -> (a < i)%nat ->
    carry rows v i = carry rows v (S a).
  Proof.
    intros E M. induction i as [|i IH]; intro L; [lia|]. destruct (Nat.eq_dec i a) as [->|N]; [reflexivity|].
    cbn [carry]. destruct (endb rows i) eqn:Ei; [specialize (M _ Ei); lia|]. apply IH. lia.
  Qed.

  Lemma accumulates i : cycles_end_with_steps rows -> (i < length rows)%nat -> settled rows i ->
    exists t x y, nth_error (quantity_sum qy d rows) i = Some y /\ nth_error v i = Some x /\
      completed rows v i t /\ y == t + x.
  Proof.
    intros CE L S. destruct (completed_carry CE i L) as (t & Ht & Et).
    assert (LV : (i < length v)%nat) by (rewrite step_values_length; exact L).
    assert (LQ : (i < length (quantity_sum qy d rows))%nat) by (rewrite quantity_sum_length; exact L).
    pose proof (nth_error_nth' v 0 LV) as EV. pose proof (nth_error_nth' (quantity_sum qy d rows) 0 LQ) as EQ.
    exists t, (nth i v 0), (nth i (quantity_sum qy d rows) 0).
    split; [exact EQ|]. split; [exact EV|]. split; [exact Ht|]. rewrite Et.
    destruct quantity_sum_spec as [(E & NE)|(a & EA & MA & _ & B1 & B2)].
    - rewrite E. rewrite carry_no_end by (auto; lia). ring.
    - destruct (Nat.le_gt_cases i a) as [K|K]; [apply B1; exact K|].
      rewrite B2 by lia. rewrite (carry_tail a i EA MA K). cbn [carry]. rewrite EA.
      assert (C : chgb rows a = false).
      { apply chgb_iff; [apply endb_len; exact EA|]. destruct S as [(e & Le & Fe)|S].
        - apply endb_iff in Fe. specialize (MA _ Fe). lia.
        - apply S; [apply endb_iff; exact EA|]. intros e' Fe. apply endb_iff in Fe. auto. }
      rewrite C. ring.
  Qed.
  Lemma completed_fun i t t' : completed rows v i t -> completed rows v i t' -> t == t'.
  Proof.
    intro H. revert t'. induction H; intros t' K; inversion K; subst; try contradiction; try reflexivity.
    - match goal with A : nth_error v i = Some x, B : nth_error v i = Some ?y |- _ => rewrite A in B; injection B as <- end.
      match goal with B : completed rows v i ?u |- _ + _ == ?u + _ => rewrite (IHcompleted _ B) end. reflexivity.
    - auto.
  Qed.
  (** Within a cycle nothing decreases, if the recorded values do not decrease
      within a step and are not negative. *)
  Lemma never_decreases i y y' : cycles_end_with_steps rows -> settled rows i -> settled rows (S i) -> (S i < length rows)%nat ->
    one_cycle rows i (S i) ->
    (forall k x, nth_error v k = Some x -> 0 <= x) ->
    (forall k x x', ~ finishes_step rows k -> nth_error v k = Some x -> nth_error v (S k) = Some x' -> x <= x') ->
    nth_error (quantity_sum qy d rows) i = Some y -> nth_error (quantity_sum qy d rows) (S i) = Some y' -> y <= y'.
  Proof.
    intros CE S1 S2 L OC NN MO E1 E2.
    destruct (accumulates i CE ltac:(lia) S1) as (t1 & x1 & y1 & F1 & G1 & C1 & K1).
    destruct (accumulates (S i) CE L S2) as (t2 & x2 & y2 & F2 & G2 & C2 & K2).
    rewrite E1 in F1. injection F1 as <-. rewrite E2 in F2. injection F2 as <-. rewrite K1, K2.
    inversion C2; subst.
    - contradiction.
    - match goal with A : nth_error v i = Some ?u, B : completed rows v i ?w |- _ =>
        rewrite A in G1; injection G1 as <-; pose proof (completed_fun _ _ _ C1 B) as EQ end.
      pose proof (NN _ _ G2). rewrite EQ. lra.
    - match goal with B : completed rows v i ?w |- _ => pose proof (completed_fun _ _ _ C1 B) as EQ end.
      match goal with N : ~ finishes_step rows i |- _ => pose proof (MO _ _ _ N G1 G2) end. rewrite EQ. lra.
  Qed.
End Result.

Lemma accumulates_all rows qy d : exists vals, Forall2 (contributes rows qy d) rows vals /\
  length (quantity_sum qy d rows) = length rows /\
  (cycles_end_with_steps rows -> forall i, (i < length rows)%nat -> settled rows i ->
   exists t x y, nth_error vals i = Some x /\ completed rows vals i t /\
     nth_error (quantity_sum qy d rows) i = Some y /\ y == t + x).
Proof.
  exists (step_values qy d rows). split; [apply contributes_all|]. split; [apply quantity_sum_length|].
  intros CE i L S. destruct (accumulates rows qy d i CE L S) as (t & x & y & A & B & C & D). exists t, x, y. auto.
Qed.
Lemma contributes_fun rows qy d r x y : contributes rows qy d r x -> contributes rows qy d r y -> x = y.
Proof.
  intros H K. destruct H as [x W E|[N|N] Sx|[N|N] Sx]; inversion K; subst; try reflexivity; try congruence;
    try contradiction;
    try (match goal with A : _ \/ _ |- _ => destruct A end; congruence || contradiction).
Qed.
Lemma contributes_list rows qy d : forall l a b, Forall2 (contributes rows qy d) l a -> Forall2 (contributes rows qy d) l b -> a = b.
Proof.
  induction l; intros a' b H K; inversion H; inversion K; subst; [reflexivity|]. f_equal; eauto using contributes_fun.
Qed.
Lemma never_decreases_all rows qy d vals : Forall2 (contributes rows qy d) rows vals -> cycles_end_with_steps rows ->
  (forall k x, nth_error vals k = Some x -> 0 <= x) ->
  (forall k x x', ~ finishes_step rows k -> nth_error vals k = Some x -> nth_error vals (S k) = Some x' -> x <= x') ->
  forall i y y', settled rows i -> settled rows (S i) -> one_cycle rows i (S i) ->
  nth_error (quantity_sum qy d rows) i = Some y -> nth_error (quantity_sum qy d rows) (S i) = Some y' -> y <= y'.
Proof.
  intros F CE NN MO i y y' S1 S2 OC E1 E2.
  pose proof (contributes_list _ _ _ _ _ _ F (contributes_all rows qy d)) as ->.
  assert (L : (S i < length rows)%nat) by (rewrite <- (quantity_sum_length rows qy d); apply nth_error_Some; congruence).
  exact (never_decreases rows qy d i y y' CE S1 S2 L OC NN MO E1 E2).
Qed.
