(** Lemmas for C24 - C27, C61. *)
From Coq Require Import Sorted.
From Verif Require Import Py Num Model_Readers Spec_Readers Proofs_Datapath Proofs_Strings.

Lemma neware_clock num_of hs ms ss h m s : char_free ":" hs -> char_free ":" ms -> char_free ":" ss ->
  num_of hs = Ok h -> num_of ms = Ok m -> num_of ss = Ok s ->
  exists t, nw_step_time num_of (hs ++ ":" ++ ms ++ ":" ++ ss) = Ok t /\ t == h * 3600 + m * 60 + s.
Proof.
  intros FH FM FS H M S. exists (3600 * h + 60 * m + s). split; [|ring].
  unfold nw_step_time. cbn [append]. rewrite (str_split_char ":" hs) by exact FH. rewrite (str_split_char ":" ms) by exact FM.
  rewrite str_split_none by exact FS. cbn [rev app]. rewrite H, M, S. reflexivity.
Qed.

(** ** Neware *)
Lemma list_set_spec {A} (x : A) : forall l i l', list_set l i x = Some l' ->
  length l' = length l /\ (i < length l)%nat /\ forall k, nth_error l' k = if Nat.eqb k i then Some x else nth_error l k.
Proof.
  induction l as [|y l IH]; intros i l' H; [destruct i; discriminate|]. destruct i as [|i]; cbn [list_set] in H.
  - injection H as <-. simpl. repeat split; [lia|]. intros [|k]; reflexivity.
  - destruct (list_set l i x) as [r|] eqn:E; [|discriminate]. injection H as <-. destruct (IH _ _ E) as (A1 & A2 & A3).
    simpl. split; [lia|]. split; [lia|]. intros [|k]; [reflexivity|]. cbn [nth_error Nat.eqb]. apply A3.
Qed.
Definition kind_eqb (a b : nw_kind) : bool :=
  match a, b with StepLine, StepLine | RecordLine, RecordLine | CycleLine, CycleLine => true | _, _ => false end.
Definition knows (pre : list string) (k : nw_kind) (idx : nat) (v : option string) : Prop :=
  forall x, v = Some x -> exists i l, nearest_before pre k i (length pre) /\ nth_error pre i = Some l /\ nth_error (str_split comma l) idx = Some x.
(** step id and resistance come from the same line *)
Definition knows2 (pre : list string) (ir_index : nat) (st : nw_state) : Prop :=
  forall s ir, nw_step st = Some s -> nw_ir st = Some ir ->
  exists i l, nearest_before pre StepLine i (length pre) /\ nth_error pre i = Some l /\
    nth_error (str_split comma l) 1 = Some s /\ nth_error (str_split comma l) ir_index = Some ir.
Lemma nearest_here pre line : nearest_before (pre ++ [line]) (nw_kind_of line) (length pre) (length (pre ++ [line])).
Proof.
  rewrite app_length; simpl. split; [lia|]. split.
  - exists line. split; [rewrite nth_error_app2, Nat.sub_diag by lia; reflexivity|reflexivity].
  - intros; lia.
Qed.
Lemma nearest_skip pre line k i : nw_kind_of line <> k -> nearest_before pre k i (length pre) ->
  nearest_before (pre ++ [line]) k i (length (pre ++ [line])).
Proof.
  intros N (A & (l & B & C) & D). rewrite app_length; simpl. split; [lia|]. split.
  - exists l. split; [rewrite nth_error_app1 by lia; exact B|exact C].
  - intros m l' R H. destruct (Nat.eq_dec m (length pre)) as [->|M].
    + rewrite nth_error_app2, Nat.sub_diag in H by lia. injection H as <-. exact N.
    + rewrite nth_error_app1 in H by lia. apply (D m); [lia|exact H].
Qed.
Lemma nearest_app pre rest k i : nearest_before pre k i (length pre) -> nearest_before (pre ++ rest) k i (length pre).
Proof.
  intros (A & (l & B & C) & D). split; [exact A|]. split.
  - exists l. split; [rewrite nth_error_app1 by lia; exact B|exact C].
  - intros m l' R H. rewrite nth_error_app1 in H by lia. apply (D m); auto.
Qed.
Lemma nth_app_last {A} (pre : list A) x : nth_error (pre ++ [x]) (length pre) = Some x.
Proof. rewrite nth_error_app2, Nat.sub_diag by lia. reflexivity. Qed.
Lemma knows_skip pre line k idx v : nw_kind_of line <> k -> knows pre k idx v -> knows (pre ++ [line]) k idx v.
Proof.
  intros N H x E. destruct (H x E) as (i & l & A & B & C). exists i, l. split; [apply nearest_skip; auto|].
  split; [|exact C]. rewrite nth_error_app1; [exact B|]. apply nth_error_Some; congruence.
Qed.
Lemma knows2_skip pre line ir st st' : nw_kind_of line <> StepLine -> nw_step st' = nw_step st -> nw_ir st' = nw_ir st ->
  knows2 pre ir st -> knows2 (pre ++ [line]) ir st'.
Proof.
  intros N E1 E2 H s x Hs Hx. rewrite E1 in Hs. rewrite E2 in Hx. destruct (H s x Hs Hx) as (i & l & A & B & C).
  exists i, l. split; [apply nearest_skip; auto|]. split; [|exact C]. rewrite nth_error_app1; [exact B|]. apply nth_error_Some; congruence.
Qed.
Definition is_record (lines : list string) (j : nat) : bool :=
  match nth_error lines j with
  | Some l => match nw_kind_of l with RecordLine => true | _ => false end
  | None => false end.
Lemma nw_lines_spec ir_index : forall rest pre st out,
  knows pre CycleLine 0 (nw_cycle st) -> knows2 pre ir_index st ->
  nw_lines ir_index st rest = Ok out ->
  Forall2 (record_of ir_index (pre ++ rest)) (filter (is_record (pre ++ rest)) (seq (length pre) (length rest))) out.
Proof.
  induction rest as [|line rest IH]; intros pre st out KC KS H; cbn [nw_lines] in H.
  - injection H as <-. constructor.
  - cbn [length seq filter]. unfold is_record at 1. rewrite nth_error_app2, Nat.sub_diag by lia. cbn [nth_error].
    assert (EA : pre ++ line :: rest = (pre ++ [line]) ++ rest) by (rewrite <- app_assoc; reflexivity).
    assert (EL : S (length pre) = length (pre ++ [line])) by (rewrite app_length; simpl; lia).
    destruct (nw_kind_of line) eqn:K.
    + unfold nw_field in H. destruct (nth_error (str_split comma line) 1) as [s|] eqn:E1; [|discriminate]. cbn [bind] in H.
      destruct (nth_error (str_split comma line) ir_index) as [ir|] eqn:E2; [|discriminate]. cbn [bind] in H.
      rewrite EA, EL. eapply IH; [| |exact H]; cbn [nw_cycle nw_step nw_ir].
      * apply knows_skip; [congruence|exact KC].
      * intros s' x Hs Hx. injection Hs as <-. injection Hx as <-. exists (length pre), line.
        split; [rewrite <- K; apply nearest_here|]. split; [apply nth_app_last|]. auto.
    + destruct (nw_record st line) as [r|] eqn:ER; [|discriminate]. cbn [bind] in H.
      destruct (nw_lines ir_index st rest) as [more|] eqn:EM; [|discriminate]. cbn [bind] in H. injection H as <-.
      constructor.
      * unfold nw_record in ER. destruct (nw_ir st) as [ir|] eqn:Eir; [|discriminate].
        destruct (list_set (str_split comma line) 22 ir) as [l|] eqn:ES; [|discriminate].
        destruct (nw_cycle st) as [c|] eqn:Ec; [|discriminate]. destruct (nw_step st) as [s|] eqn:Es; [|discriminate].
        destruct l as [|x [|y l]]; try discriminate. injection ER as <-.
        destruct (KC c eq_refl) as (ic & lc & A1 & A2 & A3). destruct (KS s ir Es Eir) as (is & ls & B1 & B2 & B3 & B4).
        destruct (list_set_spec _ _ _ _ ES) as (L1 & L2 & L3).
        assert (P1 : nth_error (pre ++ line :: rest) ic = Some lc) by (rewrite nth_error_app1; [exact A2|apply nth_error_Some; congruence]).
        assert (P2 : nth_error (pre ++ line :: rest) is = Some ls) by (rewrite nth_error_app1; [exact B2|apply nth_error_Some; congruence]).
        exists line, ic, lc, is, ls.
        split; [rewrite nth_error_app2, Nat.sub_diag by lia; reflexivity|]. split; [exact K|].
        split; [apply nearest_app; exact A1|]. split; [exact P1|]. split; [apply nearest_app; exact B1|]. split; [exact P2|].
        split; [exact L1|].
        intros k. destruct k as [|[|k]]; [change (Some c = nth_error (str_split comma lc) 0); congruence|change (Some s = nth_error (str_split comma ls) 1); congruence|].
        specialize (L3 (S (S k))). change (nth_error (c :: s :: l) (S (S k))) with (nth_error (x :: y :: l) (S (S k))). rewrite L3.
        cbn [Nat.eqb]. destruct (Nat.eqb k 20); [congruence|reflexivity].
      * rewrite EA, EL. eapply IH; [| |exact EM].
        -- apply knows_skip; [congruence|exact KC].
        -- eapply knows2_skip; eauto. congruence.
    + unfold nw_field in H. destruct (nth_error (str_split comma line) 0) as [c|] eqn:E1; [|discriminate]. cbn [bind] in H.
      rewrite EA, EL. eapply IH; [| |exact H]; cbn [nw_cycle nw_step nw_ir].
      * intros x Hx. injection Hx as <-. exists (length pre), line.
        split; [rewrite <- K; apply nearest_here|]. split; [apply nth_app_last|]. exact E1.
      * eapply knows2_skip; eauto. congruence.
Qed.
Lemma neware_records ir_index lines out : nw_lines ir_index nw_start lines = Ok out ->
  Forall2 (record_of ir_index lines) (record_positions lines) out.
Proof.
  intro H. apply (nw_lines_spec ir_index lines [] nw_start out); [| |exact H].
  - intros x E; discriminate.
  - intros s x E; discriminate.
Qed.
Lemma nw_accumulate_length l : forall t p, length (nw_accumulate t p l) = length l.
Proof. induction l; intros; simpl; auto. Qed.
Definition forward (a b d : Q) : Prop := (a <= b -> d == b - a) /\ (b < a -> d == 0).
Lemma nw_accumulate_spec l : forall t p i x y a b,
  nth_error (p :: l) i = Some x -> nth_error (p :: l) (S i) = Some y ->
  nth_error (t :: nw_accumulate t p l) i = Some a -> nth_error (t :: nw_accumulate t p l) (S i) = Some b ->
  forward x y (b - a).
Proof.
  induction l as [|z l IH]; intros t p i x y a b X Y A B; [destruct i; discriminate|].
  destruct i as [|i].
  - cbn [nth_error nw_accumulate] in *. injection X as <-. injection Y as <-. injection A as <-. injection B as <-.
    destruct (Qlt_bool (z - p) 0) eqn:E.
    + apply Qlt_bool_iff in E. split; intro; [lra|ring].
    + apply Qlt_bool_false in E. split; intro; [ring|lra].
  - change (nth_error (z :: l) i = Some x) in X. change (nth_error (z :: l) (S i) = Some y) in Y.
    cbn [nw_accumulate] in A, B. cbn [nth_error] in A, B. eapply IH; [exact X|exact Y|exact A|exact B].
Qed.
Lemma neware_time clock : length (nw_test_time clock) = length clock /\
  (forall t, nth_error (nw_test_time clock) 0 = Some t -> t == 0) /\
  forall i x y a b, nth_error clock i = Some x -> nth_error clock (S i) = Some y ->
    nth_error (nw_test_time clock) i = Some a -> nth_error (nw_test_time clock) (S i) = Some b ->
    forward x y (b - a).
Proof.
  unfold nw_test_time. destruct clock as [|x l]; [split; [reflexivity|]; split; [intros t H; discriminate H|]; intros i x y a b H; destruct i; discriminate H|].
  split; [simpl; rewrite nw_accumulate_length; reflexivity|]. split; [simpl; intros t H; injection H as <-; reflexivity|].
  apply nw_accumulate_spec.
Qed.
Lemma neware_time_mono clock i j a b : (i <= j)%nat -> nth_error (nw_test_time clock) i = Some a ->
  nth_error (nw_test_time clock) j = Some b -> a <= b.
Proof.
  destruct (neware_time clock) as (L & _ & H). intros Lij A. revert b. 
  replace j with (i + (j - i))%nat by lia. induction (j - i)%nat as [|d IH]; intros b B.
  - rewrite Nat.add_0_r, A in B. injection B as <-. apply Qle_refl.
  - rewrite Nat.add_succ_r in B. assert (S (i + d) < length (nw_test_time clock))%nat by (apply nth_error_Some; congruence).
    destruct (nth_error (nw_test_time clock) (i + d)) as [m|] eqn:M; [|apply nth_error_None in M; lia].
    destruct (nth_error clock (i + d)) as [x|] eqn:X; [|apply nth_error_None in X; lia].
    destruct (nth_error clock (S (i + d))) as [y|] eqn:Y; [|apply nth_error_None in Y; lia].
    destruct (H _ _ _ _ _ X Y M B) as (F1 & F2). specialize (IH _ eq_refl).
    destruct (Qlt_le_dec y x) as [K|K]; [specialize (F2 K)|specialize (F1 K)]; lra.
Qed.

(** ** Battery Archive *)
Lemma label_spec i : (decide_step_index i = 1%Z <-> -(1 # 1000000) < i < 1 # 1000000) /\
  (decide_step_index i = 3%Z <-> i <= -(1 # 1000000)) /\ (decide_step_index i = 2%Z <-> 1 # 1000000 <= i).
Proof.
  unfold decide_step_index. destruct (Qlt_bool (Qabs i) (1 # 1000000)) eqn:E.
  - apply Qlt_bool_iff in E. apply Qabs_Qlt_condition in E. split; [tauto|]. split; (split; [discriminate|lra]).
  - apply Qlt_bool_false in E.
    assert (N : ~ (-(1 # 1000000) < i < 1 # 1000000)) by (intro K; apply Qabs_Qlt_condition in K; lra).
    destruct (Qlt_bool i 0) eqn:F; [apply Qlt_bool_iff in F|apply Qlt_bool_false in F].
    + split; [split; [discriminate|contradiction]|]. split; [|split; [discriminate|lra]]. split; [|reflexivity]. intros _.
      destruct (Qlt_le_dec (-(1 # 1000000)) i); [|assumption]. exfalso; apply N; lra.
    + split; [split; [discriminate|contradiction]|]. split; [split; [discriminate|lra]|]. split; [|reflexivity]. intros _.
      destruct (Qlt_le_dec i (1 # 1000000)); [|assumption]. exfalso; apply N; lra.
Qed.
Lemma changes_sorted l : forall i p, (forall c, In c (changes_from i p l) -> (i <= c < i + length l)%nat) /\ StronglySorted lt (changes_from i p l).
Proof.
  induction l as [|x l IH]; intros i p; cbn [changes_from]; [split; [intros c []|constructor]|].
  destruct (IH (S i) x) as (A & B). cbn [length]. destruct (Z.eqb x p).
  - split; [intros c I; specialize (A c I); lia|exact B].
  - split; [intros c [<-|I]; [lia|specialize (A c I); lia]|]. constructor; [exact B|]. apply Forall_forall. intros c I. specialize (A c I). lia.
Qed.
Lemma changes_iff l : forall i p c, (i <= c)%nat -> In c (changes_from i p l) <->
  (c < i + length l)%nat /\ nth_error (p :: l) (c - i) <> nth_error l (c - i).
Proof.
  induction l as [|x l IH]; intros i p c L; cbn [changes_from length].
  - split; [intros []|]. intros (K & _). lia.
  - destruct (Nat.eq_dec c i) as [->|N].
    + rewrite Nat.sub_diag. cbn [nth_error]. destruct (Z.eqb_spec x p) as [->|NE].
      * split; [|intros (_ & K); congruence]. intro I. destruct (changes_sorted l (S i) p) as (A & _). specialize (A _ I). lia.
      * split; [|intros _; left; reflexivity]. intros _. split; [lia|]. congruence.
    + assert (E : (In c (changes_from (S i) x l) <-> (c < i + S (length l))%nat /\ nth_error (p :: x :: l) (c - i) <> nth_error (x :: l) (c - i))).
      { rewrite IH by lia. replace (c - i)%nat with (S (c - S i)) by lia. cbn [nth_error]. split; intros (K1 & K2); (split; [lia|exact K2]). }
      destruct (Z.eqb x p); [exact E|]. split; [intros [K|K]; [congruence|apply E; exact K]|intro K; right; apply E; exact K].
Qed.
Lemma step_changes_iff l c : In c (step_changes l) <-> (c < length l)%nat /\ (c = 0%nat \/ nth_error l (c - 1) <> nth_error l c).
Proof.
  destruct l as [|x l]; cbn [step_changes length]; [split; [intros []|lia]|].
  destruct c as [|c]; [split; [intros _; split; [lia|auto]|left; reflexivity]|].
  assert (E := changes_iff l 1 x (S c) ltac:(lia)). replace (S c - 1)%nat with c in * by lia. cbn [nth_error].
  split.
  - intros [K|K]; [discriminate|]. apply E in K. destruct K as (K1 & K2). split; [lia|right; exact K2].
  - intros (K1 & [K|K]); [discriminate|]. right. apply E. split; [lia|exact K].
Qed.
Lemma step_changes_sorted l : StronglySorted lt (step_changes l).
Proof.
  destruct l as [|x l]; [constructor|]. destruct (changes_sorted l 1 x) as (A & B). constructor; [exact B|].
  apply Forall_forall. intros c I. specialize (A c I). lia.
Qed.
Lemma repeats_spec times final : forall cs c, StronglySorted lt (c :: cs) -> (forall x, In x (c :: cs) -> (x <= final)%nat) ->
  length (repeats times (c :: cs) final) = (final - c)%nat /\
  forall k, (c + k < final)%nat -> exists b, In b (c :: cs) /\ (b <= c + k)%nat /\
    (forall b', In b' (c :: cs) -> (b' <= c + k)%nat -> (b' <= b)%nat) /\
    nth_error (repeats times (c :: cs) final) k = Some (nth b times 0).
Proof.
  induction cs as [|c' cs IH]; intros c S F.
  - cbn [repeats]. rewrite app_nil_r, repeat_length. split; [reflexivity|]. intros k K. exists c.
    split; [left; reflexivity|]. split; [lia|]. split; [intros b' [<-|[]]; lia|].
    apply nth_error_repeat. lia.
  - assert (Lc : (c < c')%nat) by (inversion S as [|? ? _ H]; subst; inversion H; assumption).
    assert (Fc : (c' <= final)%nat) by (apply F; simpl; auto).
    destruct (IH c') as (L & H); [inversion S; assumption|intros x I; apply F; right; exact I|].
    change (repeats times (c :: c' :: cs) final) with (repeat (nth c times 0) (c' - c) ++ repeats times (c' :: cs) final).
    rewrite app_length, repeat_length, L. split; [lia|]. intros k K.
    destruct (Nat.lt_ge_cases (c + k) c') as [K2|K2].
    + exists c. split; [left; reflexivity|]. split; [lia|]. split.
      * intros b' [<-|I] B; [lia|]. assert (c' <= b')%nat; [|lia].
        destruct I as [<-|I]; [lia|]. inversion S as [|? ? S' _]; subst. inversion S' as [|? ? _ G]; subst. rewrite Forall_forall in G. specialize (G _ I). lia.
      * rewrite nth_error_app1 by (rewrite repeat_length; lia). apply nth_error_repeat. lia.
    + destruct (H (c + k - c')%nat ltac:(lia)) as (b & B1 & B2 & B3 & B4). exists b. split; [right; exact B1|]. split; [lia|]. split.
      * intros b' [<-|I] B; [|apply B3; [exact I|lia]]. assert (c' <= b)%nat by (apply B3; [left; reflexivity|lia]). lia.
      * rewrite nth_error_app2 by (rewrite repeat_length; lia). rewrite repeat_length. replace (k - (c' - c))%nat with (c + k - c')%nat by lia. exact B4.
Qed.
Lemma largest_change_starts_run l b i : (i < length l)%nat -> In b (step_changes l) -> (b <= i)%nat ->
  (forall b', In b' (step_changes l) -> (b' <= i)%nat -> (b' <= b)%nat) -> run_start l b i.
Proof.
  intros L I B M. split; [exact B|]. apply step_changes_iff in I. destruct I as (_ & I). split; [|exact I].
  intros j R. assert (G : forall d, (b <= i - d)%nat -> nth_error l (i - d) = nth_error l i).
  { induction d as [|d IH]; intro K; [rewrite Nat.sub_0_r; reflexivity|].
    rewrite <- IH by lia. destruct (Nat.eq_dec (i - d) 0) as [Z|Z]; [f_equal; lia|].
    replace (i - S d)%nat with (i - d - 1)%nat by lia.
    destruct (option_map (fun _ => tt) (nth_error l (i-d))) eqn:? .
    all: destruct (nth_error l (i - d - 1)) as [a|] eqn:A; destruct (nth_error l (i - d)) as [a'|] eqn:A'; try reflexivity;
      try (apply nth_error_None in A; lia); try (apply nth_error_None in A'; lia).
    all: destruct (Z.eq_dec a a') as [->|NE]; [reflexivity|].
    all: exfalso; assert (J : In (i - d)%nat (step_changes l)) by (apply step_changes_iff; split; [lia|right; congruence]);
      specialize (M _ J ltac:(lia)); lia. }
  replace j with (i - (i - j))%nat by lia. apply G. lia.
Qed.
Lemma sub_lists_length : forall a b, length a = length b -> length (sub_lists a b) = length a.
Proof. induction a; intros [|y b] L; simpl in *; try lia. rewrite IHa; lia. Qed.
Lemma sub_lists_nth : forall a b i x y, nth_error a i = Some x -> nth_error b i = Some y -> nth_error (sub_lists a b) i = Some (x - y).
Proof. induction a; intros [|y' b] [|i] x y A B; simpl in *; try discriminate; [congruence|]. apply IHa; assumption. Qed.
Lemma combine_nth_error {A B} : forall (a : list A) (b : list B) i x y, nth_error a i = Some x -> nth_error b i = Some y -> nth_error (combine a b) i = Some (x, y).
Proof. induction a; intros [|y' b] [|i] x y E F; simpl in *; try discriminate; [congruence|]. apply IHa; assumption. Qed.
Lemma archive_steps rows : (2 <= length rows)%nat ->
  exists out, ba_steps rows = Ok out /\ length out = length rows /\
  forall i cur t, nth_error rows i = Some (cur, t) ->
  (S i < length rows \/ option_map (fun r => decide_step_index (fst r)) (nth_error rows (i - 1)) = Some (decide_step_index cur))%nat ->
  exists b cb tb st, run_start (map (fun r => decide_step_index (fst r)) rows) b i /\ nth_error rows b = Some (cb, tb) /\
    nth_error out i = Some (decide_step_index cur, st) /\ st == t - tb.
Proof.
  intro L2. set (labels := map (fun r => decide_step_index (fst r)) rows). set (times := map snd rows).
  assert (LL : length labels = length rows) by apply map_length. assert (LT : length times = length rows) by apply map_length.
  set (s := repeats times (step_changes labels) (length labels - 1)).
  assert (Hs : exists cs, step_changes labels = 0%nat :: cs).
  { unfold step_changes. destruct labels as [|x l]; [simpl in LL; lia|eexists; reflexivity]. }
  destruct Hs as (cs & Ecs).
  destruct (repeats_spec times (length labels - 1) cs 0) as (Ls & Hs).
  { rewrite <- Ecs. apply step_changes_sorted. }
  { rewrite <- Ecs. intros x I. apply step_changes_iff in I. lia. }
  rewrite <- Ecs in Ls, Hs. fold s in Ls, Hs. rewrite Nat.sub_0_r in Ls.
  assert (Hs' : forall k, (k < length rows - 1)%nat -> exists b, run_start labels b k /\ nth_error s k = Some (nth b times 0)).
  { intros k K. destruct (Hs k ltac:(lia)) as (b & B1 & B2 & B3 & B4). exists b. split; [|exact B4].
    apply largest_change_starts_run; auto. lia. }
  assert (NL : forall l : list Q, last_error l = None -> l = []).
  { induction l as [|a [|a' l] IH]; intro H; [reflexivity|discriminate|]. specialize (IH H). discriminate. }
  destruct (last_error s) as [x|] eqn:EL; [|apply NL in EL; rewrite EL in Ls; simpl in Ls; lia].
  assert (Ex : nth_error s (length rows - 2) = Some x).
  { assert (G : forall (l : list Q) y, last_error l = Some y -> nth_error l (length l - 1) = Some y).
    { induction l as [|a [|a' l] IH]; intros y H; [discriminate|exact H|]. specialize (IH y H). cbn [length] in *. rewrite Nat.sub_succ, Nat.sub_0_r in *. exact IH. }
    apply G in EL. rewrite Ls in EL. replace (length rows - 2)%nat with (length labels - 1 - 1)%nat by lia. exact EL. }
  exists (combine labels (sub_lists times (s ++ [x]))). split; [|split].
  - unfold ba_steps. fold labels times. unfold ba_subtractor. fold s. destruct labels as [|? ?] eqn:?; [simpl in LL; lia|]. rewrite EL. reflexivity.
  - rewrite combine_length, sub_lists_length by (rewrite app_length; simpl; lia). lia.
  - intros i cur t E C.
    assert (Li : (i < length rows)%nat) by (apply nth_error_Some; congruence).
    assert (El : nth_error labels i = Some (decide_step_index cur)) by (unfold labels; rewrite nth_error_map, E; reflexivity).
    assert (Et : nth_error times i = Some t) by (unfold times; rewrite nth_error_map, E; reflexivity).
    assert (G : exists b, run_start labels b i /\ nth_error (s ++ [x]) i = Some (nth b times 0)).
    { destruct (Nat.lt_ge_cases i (length rows - 1)) as [K|K].
      - destruct (Hs' i K) as (b & B1 & B2). exists b. split; [exact B1|]. rewrite nth_error_app1 by lia. exact B2.
      - assert (i = length rows - 1)%nat by lia. destruct C as [C|C]; [lia|].
        destruct (Hs' (length rows - 2)%nat ltac:(lia)) as (b & (B0 & B1 & B2) & B3). exists b. split.
        + assert (P : nth_error labels (length rows - 2) = nth_error labels i).
          { rewrite El. unfold labels. rewrite nth_error_map. replace (length rows - 2)%nat with (i - 1)%nat by lia. exact C. }
          split; [lia|]. split; [|exact B2]. intros j R. destruct (Nat.eq_dec j i) as [->|N]; [reflexivity|].
          rewrite (B1 j) by lia. exact P.
        + rewrite nth_error_app2 by lia. replace (i - length s)%nat with 0%nat by lia. simpl. rewrite Ex in B3. exact B3. }
    destruct G as (b & B1 & B2).
    assert (Lb : (b < length rows)%nat) by (destruct B1; lia).
    destruct (nth_error rows b) as [[cb tb]|] eqn:Eb; [|apply nth_error_None in Eb; lia].
    assert (Etb : nth b times 0 = tb) by (apply nth_error_nth; unfold times; rewrite nth_error_map, Eb; reflexivity).
    rewrite Etb in B2. exists b, cb, tb, (t - tb). split; [exact B1|]. split; [exact Eb|]. split; [|reflexivity].
    apply combine_nth_error; [exact El|]. apply sub_lists_nth; assumption.
Qed.

(** ** Novonix *)
Lemma nv_of_cycle_in rows c r : In r (nv_of_cycle rows c) <-> In r rows /\ nv_cycle r = c.
Proof. unfold nv_of_cycle. rewrite filter_In, Z.eqb_eq. reflexivity. Qed.
Lemma reference_cap rows c : (exists r, In r rows /\ nv_cycle r = c) -> exists m, nv_reference nv_cap rows c = Some m /\ cycle_reference nv_cap rows c m.
Proof.
  intros (r0 & I0 & C0). unfold nv_reference. destruct (forallb _ _) eqn:A.
  - rewrite forallb_forall in A.
    pose proof (col_max_spec (map (fun r => Some (nv_cap r)) (nv_of_cycle rows c))) as H.
    destruct (col_max _) as [m|].
    + exists m. split; [reflexivity|]. destruct H as (H1 & H2). apply in_map_iff in H1. destruct H1 as (r & E & I). injection E as E.
      split.
      * exists r. split; [|rewrite E; reflexivity]. apply nv_of_cycle_in in I. split; [exact I|]. right. intros r' I'. apply nv_of_cycle_in in I'. apply A in I'. destruct (nv_is_charge _); [discriminate|reflexivity].
      * intros r' (I' & _). apply H2. apply in_map_iff. exists r'. split; [reflexivity|]. apply nv_of_cycle_in. exact I'.
    + exfalso. apply (H (nv_cap r0)). apply in_map_iff. exists r0. split; [reflexivity|]. apply nv_of_cycle_in. auto.
  - apply Bool.not_true_iff_false in A.
    assert (EX : exists r1, In r1 (nv_of_cycle rows c) /\ nv_is_charge (nv_step r1) = true).
    { destruct (existsb (fun r => nv_is_charge (nv_step r)) (nv_of_cycle rows c)) eqn:B; [apply existsb_exists in B; exact B|].
      exfalso. apply A. apply forallb_forall. intros r I. destruct (nv_is_charge (nv_step r)) eqn:K; [|reflexivity].
      assert (existsb (fun r => nv_is_charge (nv_step r)) (nv_of_cycle rows c) = true) by (apply existsb_exists; eauto). congruence. }
    destruct EX as (r1 & I1 & K1). unfold nv_charge_max.
    pose proof (col_max_spec (map (fun r => if nv_is_charge (nv_step r) then Some (nv_cap r) else None) (nv_of_cycle rows c))) as H.
    destruct (col_max _) as [m|].
    + exists m. split; [reflexivity|]. destruct H as (H1 & H2). apply in_map_iff in H1. destruct H1 as (r & E & I).
      destruct (nv_is_charge (nv_step r)) eqn:K; [|discriminate]. injection E as E. split.
      * exists r. split; [|rewrite E; reflexivity]. apply nv_of_cycle_in in I. auto.
      * intros r' (I' & [K'|K']).
        -- apply H2. apply in_map_iff. exists r'. rewrite K'. split; [reflexivity|]. apply nv_of_cycle_in. exact I'.
        -- exfalso. apply nv_of_cycle_in in I1. rewrite (K' _ I1) in K1. discriminate.
    + exfalso. apply (H (nv_cap r1)). apply in_map_iff. exists r1. rewrite K1. auto.
Qed.
Lemma reference_en rows c r1 : In r1 rows -> nv_cycle r1 = c -> nv_is_charge (nv_step r1) = true ->
  exists m, nv_reference nv_en rows c = Some m /\ cycle_reference nv_en rows c m.
Proof.
  intros I1 C1 K1. unfold nv_reference. destruct (forallb _ _) eqn:A.
  - exfalso. rewrite forallb_forall in A. assert (I : In r1 (nv_of_cycle rows c)) by (apply nv_of_cycle_in; auto). apply A in I. rewrite K1 in I. discriminate.
  - unfold nv_charge_max.
    pose proof (col_max_spec (map (fun r => if nv_is_charge (nv_step r) then Some (nv_en r) else None) (nv_of_cycle rows c))) as H.
    destruct (col_max _) as [m|].
    + exists m. split; [reflexivity|]. destruct H as (H1 & H2). apply in_map_iff in H1. destruct H1 as (r & E & I).
      destruct (nv_is_charge (nv_step r)) eqn:K; [|discriminate]. injection E as E. split.
      * exists r. split; [|rewrite E; reflexivity]. apply nv_of_cycle_in in I. auto.
      * intros r' (I' & [K'|K']).
        -- apply H2. apply in_map_iff. exists r'. rewrite K'. split; [reflexivity|]. apply nv_of_cycle_in. exact I'.
        -- exfalso. rewrite (K' r1 (conj I1 C1)) in K1. discriminate.
    + exfalso. apply (H (nv_en r1)). apply in_map_iff. exists r1. rewrite K1. split; [reflexivity|]. apply nv_of_cycle_in; auto.
Qed.
Lemma novonix_known rows : (forall r, In r rows -> In (nv_step r) [0; 1; 2; 7; 8; 9; 10]%Z) <-> exists out, novonix_columns rows = Ok out.
Proof.
  assert (G : forall s, nv_known s = true <-> In s [0; 1; 2; 7; 8; 9; 10]%Z).
  { intro s. unfold nv_known. rewrite existsb_exists. split; [intros (x & I & E); apply Z.eqb_eq in E; subst; exact I|intro I; exists s; split; [exact I|apply Z.eqb_refl]]. }
  unfold novonix_columns. destruct (forallb _ _) eqn:A.
  - split; [intros _; eexists; reflexivity|]. intros _ r I. rewrite forallb_forall in A. apply G. apply A. exact I.
  - split; [|intros (out & H); discriminate]. intro H. exfalso. assert (forallb (fun r => nv_known (nv_step r)) rows = true); [|congruence].
    apply forallb_forall. intros r I. apply G. apply H. exact I.
Qed.
Lemma F2_map {A B} (P : A -> B -> Prop) (f : A -> B) l : (forall x, In x l -> P x (f x)) -> Forall2 P l (map f l).
Proof. induction l; intro H; simpl; constructor; [apply H; left; reflexivity|]. apply IHl. intros; apply H; right; assumption. Qed.
Lemma nv_charge_cases s : nv_is_charge s = true <-> (s = 1 \/ s = 7 \/ s = 8)%Z.
Proof.
  unfold nv_is_charge. simpl. rewrite !orb_true_iff, !Z.eqb_eq. intuition congruence.
Qed.
Lemma novonix_spec rows out : novonix_columns rows = Ok out ->
  Forall2 (fun r o =>
    let charging := (nv_step r = 1 \/ nv_step r = 7 \/ nv_step r = 8)%Z in
    (charging -> nv_charge_cap o = Some (nv_cap r) /\ nv_charge_en o = Some (nv_en r) /\
                 nv_discharge_cap o = None /\ nv_discharge_en o = None) /\
    (~ charging -> nv_charge_cap o = None /\ nv_charge_en o = None) /\
    (nv_step r = 0%Z -> nv_discharge_cap o = Some (nv_cap r) /\ nv_discharge_en o = Some (nv_en r)) /\
    (~ charging -> nv_step r <> 0%Z ->
      (exists m d, cycle_reference nv_cap rows (nv_cycle r) m /\ nv_discharge_cap o = Some d /\ d == m - nv_cap r) /\
      ((exists r', In r' rows /\ nv_cycle r' = nv_cycle r /\ nv_is_charge (nv_step r') = true) ->
       exists m d, cycle_reference nv_en rows (nv_cycle r) m /\ nv_discharge_en o = Some d /\ d == m - nv_en r))) rows out.
Proof.
  unfold novonix_columns. destruct (forallb _ _); [|discriminate]. intro H. injection H as <-. apply F2_map. intros r I.
  cbn [nv_charge_cap nv_charge_en nv_discharge_cap nv_discharge_en]. unfold nv_charge_col, nv_discharge_col. cbv zeta.
  rewrite <- nv_charge_cases. split; [|split; [|split]].
  - intros ->. auto.
  - intro N. destruct (nv_is_charge (nv_step r)); [contradiction|auto].
  - intros ->. auto.
  - intros N N0. destruct (nv_is_charge (nv_step r)); [contradiction|]. unfold nv_is_rest. destruct (Z.eqb_spec (nv_step r) 0); [contradiction|]. split.
    + destruct (reference_cap rows (nv_cycle r)) as (m & -> & M); [eauto|]. exists m, (m - nv_cap r). split; [exact M|]. split; reflexivity.
    + intros (r' & I' & C' & K'). destruct (reference_en rows (nv_cycle r) r' I' C' K') as (m & -> & M). exists m, (m - nv_en r). split; [exact M|]. split; reflexivity.
Qed.

(** ** Indigo *)
Lemma indigo_spec rows cell out : indigo_columns rows = Ok (cell, out) ->
  (forall r, In r rows -> in_cell r = cell) /\
  Forall2 (fun r o =>
    (Z.odd (in_half_cycle r) = true -> in_charge_cap o == Qabs (in_coulomb r) / 3600 /\ in_charge_en o == Qabs (in_energy r) /\
       in_discharge_cap o == 0 /\ in_discharge_en o == 0) /\
    (Z.odd (in_half_cycle r) = false -> in_discharge_cap o == Qabs (in_coulomb r) / 3600 /\ in_discharge_en o == Qabs (in_energy r) /\
       in_charge_cap o == 0 /\ in_charge_en o == 0)) rows out.
Proof.
  unfold indigo_columns. destruct rows as [|r0 rows]; [discriminate|]. destruct (forallb _ _) eqn:A; [|discriminate].
  intro H. injection H as <- <-. split.
  - rewrite forallb_forall in A. intros r I. apply Z.eqb_eq. apply A. exact I.
  - change (indigo_row r0 :: map indigo_row rows) with (map indigo_row (r0 :: rows)). apply F2_map. intros r _.
    unfold indigo_row. cbn [in_charge_cap in_charge_en in_discharge_cap in_discharge_en].
    assert (E : Z.eqb (in_half_cycle r mod 2) 1 = Z.odd (in_half_cycle r)).
    { rewrite Zmod_odd. destruct (Z.odd (in_half_cycle r)); reflexivity. }
    rewrite E. split; intros ->; repeat split; reflexivity.
Qed.
Lemma indigo_mixed rows r r' : In r rows -> In r' rows -> in_cell r <> in_cell r' -> indigo_columns rows = Err ValueError.
Proof.
  intros I I' N. unfold indigo_columns. destruct rows as [|r0 rows]; [destruct I|]. destruct (forallb _ _) eqn:A; [|reflexivity].
  exfalso. rewrite forallb_forall in A. apply N. apply A in I. apply A in I'. apply Z.eqb_eq in I, I'. congruence.
Qed.

(** ** Splicing *)
Definition moved (d1 d2 d2' : sframe) (c : string) : Prop :=
  exists x xs y col1, sget d2 c = Some (x :: xs) /\ sget d1 c = Some col1 /\ last_error col1 = Some y /\
    ((x < y -> sget d2' c = Some (map (fun v => v + y) (x :: xs))) /\ (y <= x -> sget d2' c = Some (x :: xs))).
Lemma increment_column_spec d1 d2 d2' c : increment_column d1 d2 c = Ok d2' ->
  moved d1 d2 d2' c /\ (forall c', c' <> c -> sget d2' c' = sget d2 c').
Proof.
  unfold increment_column. destruct (sget d2 c) as [[|x xs]|] eqn:E2; try discriminate.
  destruct (sget d1 c) as [col1|] eqn:E1; [|discriminate]. destruct (last_error col1) as [y|] eqn:EL; [|discriminate].
  intro H. assert (EH : d2' = if Qlt_bool x y then sset d2 c (map (fun v => v + y) (x :: xs)) else d2) by (apply (f_equal (fun r => match r with Ok a => a | Err _ => d2 end)) in H; exact (eq_sym H)). clear H. subst d2'. split.
  - exists x, xs, y, col1. rewrite E1. split; [exact E2|]. split; [reflexivity|]. split; [exact EL|]. split; intro L.
    + apply Qlt_bool_iff in L. rewrite L. rewrite sget_sset, String.eqb_refl. reflexivity.
    + apply Qlt_bool_false in L. rewrite L. exact E2.
  - intros c' N. destruct (Qlt_bool x y); [|reflexivity]. rewrite sget_sset. destruct (String.eqb_spec c' c); [contradiction|reflexivity].
Qed.
Lemma moved_ext d1 d2 d2' a b c : sget d2 c = sget a c -> sget d2' c = sget b c -> moved d1 d2 d2' c -> moved d1 a b c.
Proof. intros E F (x & xs & y & col & A & B & C & D & G). exists x, xs, y, col. rewrite <- E, <- F. auto. Qed.
Lemma increment_columns_spec d1 cs : NoDup cs -> forall d2 d2', increment_columns d1 d2 cs = Ok d2' ->
  (forall c, In c cs -> moved d1 d2 d2' c) /\ (forall c, ~ In c cs -> sget d2' c = sget d2 c).
Proof.
  induction cs as [|c cs IH]; intros N d2 d2' H; simpl in H; [injection H as <-; split; [intros c []|auto]|].
  destruct (increment_column d1 d2 c) as [m|] eqn:E; [|discriminate]. simpl in H. inversion N as [|? ? N1 N2]; subst.
  destruct (increment_column_spec _ _ _ _ E) as (A & B). destruct (IH N2 _ _ H) as (C & D). split.
  - intros c' [<-|I].
    + eapply moved_ext; [reflexivity|symmetry; apply D; exact N1|exact A].
    + eapply moved_ext; [|reflexivity|apply C; exact I]. apply B. intros ->. contradiction.
  - intros c' I. rewrite D by (intro K; apply I; right; exact K). apply B. intros ->. apply I. left; reflexivity.
Qed.
Lemma columns_nodup : NoDup columns_to_update.
Proof. repeat constructor; simpl; intuition discriminate. Qed.
Lemma splice_get d1 d2 c : sget (splice_frames d1 d2) c =
  match sget d1 c with Some col => Some (col ++ match sget d2 c with Some col2 => col2 | None => [] end) | None => None end.
Proof.
  unfold splice_frames, sget. induction d1 as [|[k v] d1 IH]; [reflexivity|]. cbn [map d_get].
  destruct (String.eqb_spec c k) as [->|N]; [reflexivity|exact IH].
Qed.
Lemma F2_same (l : list Q) : Forall2 (fun v v' => v' == v + 0) l l.
Proof. induction l; constructor; [ring|assumption]. Qed.
Lemma F2_shift (l : list Q) y : Forall2 (fun v v' => v' == v + y) l (map (fun v => v + y) l).
Proof. induction l; constructor; [ring|assumption]. Qed.
Lemma splice_columns d1 d2 d : splice d1 d2 = Ok d ->
  forall c col1 col2, sget d1 c = Some col1 -> sget d2 c = Some col2 ->
  exists shift col2', sget d c = Some (col1 ++ col2') /\ Forall2 (fun v v' => v' == v + shift) col2 col2' /\
    (shift == 0 \/ (In c columns_to_update /\ last_error col1 = Some shift)).
Proof.
  unfold splice, column_increment. destruct (increment_columns d1 d2 columns_to_update) as [d2'|] eqn:E; [|discriminate].
  cbn [bind]. intro H. injection H as <-. destruct (increment_columns_spec d1 _ columns_nodup _ _ E) as (A & B).
  intros c col1 col2 E1 E2. rewrite splice_get, E1.
  destruct (in_dec string_dec c columns_to_update) as [I|I].
  - destruct (A c I) as (x & xs & y & col & F1 & F2 & F3 & F4 & F5). rewrite E2 in F1. injection F1 as ->.
    rewrite E1 in F2. injection F2 as <-.
    destruct (Qlt_le_dec x y) as [K|K].
    + exists y, (map (fun v => v + y) (x :: xs)). rewrite (F4 K). split; [reflexivity|]. split; [apply F2_shift|auto].
    + exists 0, (x :: xs). rewrite (F5 K). split; [reflexivity|]. split; [apply F2_same|left; reflexivity].
  - exists 0, col2. rewrite (B c I), E2. split; [reflexivity|]. split; [apply F2_same|left; reflexivity].
Qed.
Lemma splice_forward d1 d2 d : splice d1 d2 = Ok d -> forall c, In c columns_to_update ->
  exists col1 y x xs x' xs', sget d1 c = Some col1 /\ last_error col1 = Some y /\ sget d2 c = Some (x :: xs) /\
    sget d c = Some (col1 ++ x' :: xs') /\ length xs' = length xs /\
    (0 <= x -> y <= x') /\
    (forall i a b a' b', nth_error (x :: xs) i = Some a -> nth_error (x :: xs) (S i) = Some b ->
       nth_error (x' :: xs') i = Some a' -> nth_error (x' :: xs') (S i) = Some b' -> b' - a' == b - a).
Proof.
  unfold splice, column_increment. destruct (increment_columns d1 d2 columns_to_update) as [d2'|] eqn:E; [|discriminate].
  cbn [bind]. intro H. injection H as <-. destruct (increment_columns_spec d1 _ columns_nodup _ _ E) as (A & _).
  intros c I. destruct (A c I) as (x & xs & y & col & F1 & F2 & F3 & F4 & F5).
  destruct (Qlt_le_dec x y) as [K|K].
  - exists col, y, x, xs, (x + y), (map (fun v => v + y) xs). split; [exact F2|]. split; [exact F3|]. split; [exact F1|].
    split; [rewrite splice_get, F2, (F4 K); reflexivity|]. split; [apply map_length|]. split; [intro; lra|].
    intros i a b a' b' Ha Hb Ha' Hb'. change (x + y :: map (fun v => v + y) xs) with (map (fun v => v + y) (x :: xs)) in Ha', Hb'.
    rewrite nth_error_map, Ha in Ha'. rewrite nth_error_map, Hb in Hb'. injection Ha' as <-. injection Hb' as <-. ring.
  - exists col, y, x, xs, x, xs. split; [exact F2|]. split; [exact F3|]. split; [exact F1|].
    split; [rewrite splice_get, F2, (F5 K); reflexivity|]. split; [reflexivity|]. split; [intro; exact K|].
    intros i a b a' b' Ha Hb Ha' Hb'. rewrite Ha in Ha'. rewrite Hb in Hb'. injection Ha' as <-. injection Hb' as <-. reflexivity.
Qed.
