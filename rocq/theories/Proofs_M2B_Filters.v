(** Proofs for the filters, the sequence mappings and the exported table. *)
From Verif Require Import Py Num Model_Text Model_Units Spec_Units Proofs_Strings Proofs_Datapath Model_M2B Spec_M2B Proofs_M2B_Techniques.
Require Import Lqa.

Lemma without_ext {A} (P P' : A -> Prop) l l' : (forall x, In x l -> P x <-> P' x) -> without P l l' -> without P' l l'.
Proof.
  intros E W. induction W as [|x l l' H W IH|x l l' H W IH].
  - constructor.
  - apply wo_drop; [apply E; [left; reflexivity|exact H]|]. apply IH. intros y Y. apply E. right. exact Y.
  - apply wo_keep; [rewrite <- (E x (or_introl eq_refl)); exact H|]. apply IH. intros y Y. apply E. right. exact Y.
Qed.
Lemma without_incl {A} (P : A -> Prop) l l' : without P l l' -> incl l' l.
Proof. induction 1 as [|x l l' H W IH|x l l' H W IH]; intros y Y; [exact Y|right; apply IH; exact Y|]. destruct Y as [<-|Y]; [left; reflexivity|right; apply IH; exact Y]. Qed.
Lemma without_trans {A} (P R : A -> Prop) l m n : without P l m -> without R m n -> without (fun x => P x \/ R x) l n.
Proof.
  intros W. revert n. induction W as [|x l l' H W IH|x l l' H W IH]; intros n V.
  - inversion V. constructor.
  - apply wo_drop; [left; exact H|]. apply IH. exact V.
  - inversion V as [|? ? ? HR V'|? ? ? HR V']; subst.
    + apply wo_drop; [right; exact HR|]. apply IH. exact V'.
    + apply wo_keep; [tauto|]. apply IH. exact V'.
Qed.
Lemma keep_spec pred (P : end_entry -> Prop) : forall l,
  (forall e, In e l -> exists b, pred e = Ok b /\ (b = false <-> P e)) ->
  exists k, keep pred l = Ok k /\ without P l k.
Proof.
  induction l as [|e l IH]; intros F.
  - exists []. split; [reflexivity|constructor].
  - destruct (F e (or_introl eq_refl)) as (b & B & I). destruct IH as (k & K & W). { intros x X. apply F. right. exact X. }
    cbn [keep]. rewrite B. cbn [bind]. rewrite K. cbn [bind]. destruct b.
    + exists (e :: k). split; [reflexivity|]. apply wo_keep; [|exact W]. intros X. apply I in X. discriminate.
    + exists k. split; [reflexivity|]. apply wo_drop; [|exact W]. apply I. reflexivity.
Qed.
Lemma without_length {A} (P : A -> Prop) l l' : without P l l' -> (length l' <= length l)%nat /\ (length l' = length l -> l' = l).
Proof.
  induction 1 as [|x l l' H W [IH1 IH2]|x l l' H W [IH1 IH2]]; cbn [length]; split; try lia; try reflexivity.
  intros E. f_equal. apply IH2. lia.
Qed.
Lemma filter_spec pred (P : end_entry -> Prop) st : (forall e, st_ends st <> One e) ->
  (forall e, In e (the_ends st) -> exists b, pred e = Ok b /\ (b = false <-> P e)) ->
  exists st', end_entry_filter pred st = Ok st' /\ (forall e, st_ends st' <> One e) /\ same_but_ends st st' /\ without P (the_ends st) (the_ends st').
Proof.
  intros N F. unfold end_entry_filter, the_ends in *. destruct (st_ends st) as [|e|l] eqn:E.
  - exists st. rewrite E. split; [reflexivity|]. split; [discriminate|]. split; [repeat split|constructor].
  - contradiction (N e). reflexivity.
  - destruct (keep_spec pred P l F) as (k & K & W). rewrite K. cbn [bind]. destruct (Nat.eqb_spec (length k) (length l)) as [L|L].
    + exists st. rewrite E. split; [reflexivity|]. split; [discriminate|]. split; [repeat split|]. rewrite <- (proj2 (without_length _ _ _ W) L) at 2. exact W.
    + eexists. split; [reflexivity|]. cbn [st_ends with_ends]. split; [destruct k; discriminate|]. split; [repeat split|]. destruct k; exact W.
Qed.

Lemma denotes_float t q : denotes t q -> exists v, py_float t = Ok v /\ v == q.
Proof. intros (l & L & E). unfold py_float. rewrite L. eauto. Qed.
Lemma float_denotes t v : py_float t = Ok v -> denotes t v.
Proof. unfold py_float. destruct (parse_lit t) as [l|] eqn:L; [|discriminate]. intros [= <-]. exists l. split; [exact L|reflexivity]. Qed.
Definition beyond1 (limit : option Q) (ty oper : string) (R : Q -> Q -> Prop) (e : end_entry) : Prop :=
  e_type e = ty /\ e_oper e = oper /\ exists m v, limit = Some m /\ denotes (e_value e) v /\ R v m.
Lemma pred_spec limit ty oper f R e : (forall v m, f v m = true <-> R v m) -> (forall v v' m, v == v' -> R v m -> R v' m) ->
  (e_type e = ty -> exists v, denotes (e_value e) v) ->
  exists b, limit_pred limit ty oper f e = Ok b /\ (b = false <-> beyond1 limit ty oper R e).
Proof.
  intros FR RC RD. unfold limit_pred, beyond1. destruct limit as [m|].
  2:{ exists true. split; [reflexivity|]. split; [discriminate|]. intros (_ & _ & m & v & X & _). discriminate X. }
  destruct (String.eqb_spec (e_type e) ty) as [T|T]; cbn [negb].
  2:{ exists true. split; [reflexivity|]. split; [discriminate|]. intros (X & _). contradiction. }
  destruct (RD T) as (x & D). destruct (denotes_float _ _ D) as (v & V & E). rewrite V. cbn [bind]. eexists. split; [reflexivity|].
  rewrite negb_false_iff, andb_true_iff, FR, String.eqb_eq. split.
  - intros [O H]. split; [exact T|]. split; [exact O|]. exists m, v. split; [reflexivity|]. split; [apply float_denotes; exact V|exact H].
  - intros (_ & O & m' & v' & [= <-] & D' & H). split; [exact O|]. apply (RC v'); [|exact H].
    destruct D' as (l & L & E'). destruct D as (l2 & L2 & E2). rewrite L in L2. injection L2 as <-. rewrite <- E', E2. symmetry. exact E.
Qed.
Lemma beyond_iff c e : beyond c e <->
  ((beyond1 (max_i c) "Current" ">=" (fun v m => m < v) e \/ beyond1 (min_i c) "Current" "<=" (fun v m => v < m) e) \/
   beyond1 (max_v c) "Voltage" ">=" (fun v m => m <= v) e) \/ beyond1 (min_v c) "Voltage" "<=" (fun v m => v <= m) e.
Proof.
  unfold beyond, beyond1. split.
  - intros (v & D & [(A & B & m & C & E)|[(A & B & m & C & E)|[(A & B & m & C & E)|(A & B & m & C & E)]]]).
    + left. right. eauto 10.
    + right. eauto 10.
    + left. left. left. eauto 10.
    + left. left. right. eauto 10.
  - intros [[[(A & B & m & v & C & D & E)|(A & B & m & v & C & D & E)]|(A & B & m & v & C & D & E)]|(A & B & m & v & C & D & E)]; exists v; (split; [exact D|]).
    + right. right. left. eauto 10.
    + right. right. right. eauto 10.
    + left. eauto 10.
    + right. left. eauto 10.
Qed.
Lemma Qlt_bool_true a b : Qlt_bool a b = true <-> a < b.
Proof. apply Qlt_bool_iff. Qed.
Lemma filters_one c st : (forall e, st_ends st <> One e) -> readable st ->
  exists s1 s2 s3 s4, end_entry_filter (max_current_pred c) st = Ok s1 /\ end_entry_filter (min_current_pred c) s1 = Ok s2 /\
    end_entry_filter (max_voltage_pred c) s2 = Ok s3 /\ end_entry_filter (min_voltage_pred c) s3 = Ok s4 /\ filtered c st s4.
Proof.
  intros N RD.
  assert (RV : forall st', incl (the_ends st') (the_ends st) -> forall e, In e (the_ends st') -> e_type e = "Voltage"%string -> exists v, denotes (e_value e) v).
  { intros st' I e E T. apply RD; [apply I; exact E|]. left. symmetry. exact T. }
  assert (RI : forall st', incl (the_ends st') (the_ends st) -> forall e, In e (the_ends st') -> e_type e = "Current"%string -> exists v, denotes (e_value e) v).
  { intros st' I e E T. apply RD; [apply I; exact E|]. right. left. symmetry. exact T. }
  destruct (filter_spec (max_current_pred c) (beyond1 (max_i c) "Current" ">=" (fun v m => m < v)) st N) as (s1 & E1 & N1 & S1 & W1).
  { intros e E. apply pred_spec; [intros; apply Qlt_bool_iff|intros; lra|]. apply (RI st); [apply incl_refl|exact E]. }
  assert (I1 := without_incl _ _ _ W1).
  destruct (filter_spec (min_current_pred c) (beyond1 (min_i c) "Current" "<=" (fun v m => v < m)) s1 N1) as (s2 & E2 & N2 & S2 & W2).
  { intros e E. apply pred_spec; [intros; apply Qlt_bool_iff|intros; lra|]. apply (RI s1); [exact I1|exact E]. }
  assert (I2 := incl_tran (without_incl _ _ _ W2) I1).
  destruct (filter_spec (max_voltage_pred c) (beyond1 (max_v c) "Voltage" ">=" (fun v m => m <= v)) s2 N2) as (s3 & E3 & N3 & S3 & W3).
  { intros e E. apply pred_spec; [intros; apply Qle_bool_iff|intros; lra|]. apply (RV s2); [exact I2|exact E]. }
  assert (I3 := incl_tran (without_incl _ _ _ W3) I2).
  destruct (filter_spec (min_voltage_pred c) (beyond1 (min_v c) "Voltage" "<=" (fun v m => v <= m)) s3 N3) as (s4 & E4 & N4 & S4 & W4).
  { intros e E. apply pred_spec; [intros; apply Qle_bool_iff|intros; lra|]. apply (RV s3); [exact I3|exact E]. }
  exists s1, s2, s3, s4. repeat (split; [assumption|]). split.
  - unfold same_but_ends in *. intuition congruence.
  - pose proof (without_trans _ _ _ _ _ (without_trans _ _ _ _ _ (without_trans _ _ _ _ _ W1 W2) W3) W4) as W.
    revert W. apply without_ext. intros e _. cbv beta. symmetry. apply beyond_iff.
Qed.
Theorem filters_exact c : forall steps n, Forall (fun st => (forall e, st_ends st <> One e) /\ readable st) steps ->
  exists out, apply_step_mappings c [] n steps = Ok out /\ Forall2 (filtered c) steps out.
Proof.
  induction steps as [|st steps IH]; intros n F.
  - exists []. split; [reflexivity|constructor].
  - inversion F as [|? ? [F1 F2] F']; subst. destruct (filters_one c st F1 F2) as (s1 & s2 & s3 & s4 & E1 & E2 & E3 & E4 & W).
    destruct (IH (n + 1)%Z F') as (out & O & OO). exists (s4 :: out). cbn [apply_step_mappings].
    rewrite E1. cbn [bind]. rewrite E2. cbn [bind]. rewrite E3. cbn [bind]. rewrite E4. cbn [bind run_step_mappers]. rewrite O. cbn [bind].
    split; [reflexivity|]. constructor; assumption.
Qed.
Lemma mappers_spec : forall fs st n st', run_step_mappers fs st n = Ok st' <-> mapped_by fs n st st'.
Proof.
  induction fs as [|f fs IH]; intros st n st'; cbn [run_step_mappers mapped_by].
  - split; [intros [= <-]; reflexivity|intros ->; reflexivity].
  - destruct (f st n) as [m|x] eqn:E; cbn [bind].
    + rewrite IH. split; [eauto|]. intros (m' & [= <-] & H). exact H.
    + split; [discriminate|]. intros (m' & X & _). discriminate X.
Qed.
Theorem mappers_after c fs : forall steps n mid out, apply_step_mappings c [] n steps = Ok mid ->
  apply_step_mappings c fs n steps = Ok out ->
  length out = length mid /\
  forall k st st', nth_error mid k = Some st -> nth_error out k = Some st' -> mapped_by fs (n + Z.of_nat k) st st'.
Proof.
  induction steps as [|st0 steps IH]; intros n mid out A B.
  - injection A as <-. injection B as <-. split; [reflexivity|]. intros [|k]; discriminate.
  - cbn [apply_step_mappings] in A, B.
    destruct (end_entry_filter (max_current_pred c) st0) as [s1|]; [|discriminate]. cbn [bind] in A, B.
    destruct (end_entry_filter (min_current_pred c) s1) as [s2|]; [|discriminate]. cbn [bind] in A, B.
    destruct (end_entry_filter (max_voltage_pred c) s2) as [s3|]; [|discriminate]. cbn [bind] in A, B.
    destruct (end_entry_filter (min_voltage_pred c) s3) as [s4|]; [|discriminate]. cbn [bind run_step_mappers] in A, B.
    destruct (apply_step_mappings c [] (n + 1) steps) as [mid'|] eqn:A'; [|discriminate]. injection A as <-.
    destruct (run_step_mappers fs s4 n) as [s5|] eqn:R; [|discriminate]. cbn [bind] in B.
    destruct (apply_step_mappings c fs (n + 1) steps) as [out'|] eqn:B'; [|discriminate]. injection B as <-.
    destruct (IH _ _ _ A' B') as (L & H). split; [cbn; f_equal; exact L|].
    intros [|k] st st'; cbn [nth_error].
    + intros [= <-] [= <-]. rewrite Z.add_0_r. apply mappers_spec. exact R.
    + intros X Y. replace (n + Z.of_nat (S k))%Z with (n + 1 + Z.of_nat k)%Z by lia. apply H; assumption.
Qed.
Theorem single_kept c n st e : st_ends st = One e -> apply_step_mappings c [] n [st] = Ok [st].
Proof. intros E. cbn [apply_step_mappings run_step_mappers]. unfold end_entry_filter. rewrite E. cbn [bind]. rewrite E. cbn [bind]. rewrite E. cbn [bind]. rewrite E. reflexivity. Qed.

(** ** Sequence mappings *)
Lemma seq_mapping_nth c fs : forall seqs i k, nth_error (apply_seq_mappings c fs i seqs) k = option_map (fun d => map_seq c fs d (i + Z.of_nat k)) (nth_error seqs k).
Proof.
  induction seqs as [|d seqs IH]; intros i [|k]; cbn [apply_seq_mappings nth_error option_map]; try reflexivity.
  - rewrite Z.add_0_r. reflexivity.
  - rewrite IH. destruct (nth_error seqs k); [|reflexivity]. cbn [option_map]. do 2 f_equal. lia.
Qed.
Theorem last_mapping c fs f seqs i k :
  nth_error (apply_seq_mappings c (fs ++ [f]) i seqs) k = option_map (fun d => f d (i + Z.of_nat k)%Z) (nth_error seqs k).
Proof.
  rewrite seq_mapping_nth. destruct (nth_error seqs k); [|reflexivity]. cbn [option_map]. f_equal. unfold map_seq. rewrite fold_left_app. reflexivity.
Qed.
Definition range_keys : list string := ["I Range Max"; "I Range Min"; "E Range Max (V)"; "E Range Min (V)"]%string.
Lemma range_other l k d k' : k' <> k -> sget (range_mapper l k d) k' = sget d k'.
Proof. intros N. unfold range_mapper. destruct l; [|reflexivity]. unfold sset_str. rewrite sget_sset. destruct (String.eqb_spec k' k); [contradiction|]. destruct (String.eqb_spec k k'); [congruence|reflexivity]. Qed.
Lemma cells_eq w k c : ~ In k range_keys -> forall seqs i, field_cells w k (apply_seq_mappings c [] i seqs) = field_cells w k seqs.
Proof.
  intros N. induction seqs as [|d seqs IH]; intros i; [reflexivity|]. cbn [apply_seq_mappings field_cells].
  assert (E : sget (map_seq c [] d i) k = sget d k).
  { unfold map_seq. cbn [fold_left]. unfold min_voltage_mapper. apply range_other. intros ->. apply N. cbn. auto. }
  rewrite E, IH. reflexivity.
Qed.
Theorem limits_not_exported c w keys seqs : (forall k, In k keys -> ~ In k range_keys) ->
  seqs_to_str w keys (apply_seq_mappings c [] 0 seqs) = seqs_to_str w keys seqs.
Proof.
  induction keys as [|k keys IH]; intros N; [reflexivity|]. cbn [seqs_to_str]. rewrite cells_eq by (apply N; left; reflexivity).
  rewrite IH by (intros x X; apply N; right; exact X). reflexivity.
Qed.

(** ** The table *)
Lemma spaces_length n : String.length (spaces n) = n.
Proof. induction n; cbn [spaces String.length]; congruence. Qed.
Lemma spaces_only n a : In a (list_ascii_of_string (spaces n)) -> a = " "%char.
Proof. induction n; cbn [spaces list_ascii_of_string In]; [tauto|]. intros [<-|H]; [reflexivity|apply IHn; exact H]. Qed.
Lemma ljust_padded w s : (String.length s <= w)%nat -> padded w s (ljust w s).
Proof.
  intros L. unfold ljust. split.
  - rewrite app_length_s, spaces_length. lia.
  - exists (spaces (w - String.length s)). split; [reflexivity|apply spaces_only].
Qed.
Lemma shown_text v : shown v (fval_text v).
Proof. destruct v; reflexivity. Qed.
Lemma cells_ok w k : forall seqs text, field_cells w k seqs = Ok text ->
  exists cells, text = cat cells /\ Forall2 (fun d cell => exists v s, sget d k = Some v /\ shown v s /\ padded w s cell) seqs cells.
Proof.
  induction seqs as [|d seqs IH]; intros text; cbn [field_cells].
  - intros [= <-]. exists []. split; [reflexivity|constructor].
  - destruct (sget d k) as [v|] eqn:G; [|discriminate]. destruct (Nat.ltb_spec w (String.length (fval_text v))) as [L|L]; [discriminate|].
    destruct (field_cells w k seqs) as [more|]; [|discriminate]. intros [= <-]. destruct (IH more eq_refl) as (cells & -> & F).
    exists (ljust w (fval_text v) :: cells). split; [reflexivity|]. constructor; [|exact F].
    exists v, (fval_text v). split; [exact G|]. split; [apply shown_text|]. apply ljust_padded. exact L.
Qed.
Lemma append_assoc_s (a b c : string) : (a ++ (b ++ c) = (a ++ b) ++ c)%string.
Proof. induction a; cbn [append]; congruence. Qed.
Theorem table_written w : forall keys seqs text, seqs_to_str w keys seqs = Ok text -> table w keys seqs text.
Proof.
  induction keys as [|k keys IH]; intros seqs text; cbn [seqs_to_str].
  - intros [= <-]. exists []. split; [reflexivity|constructor].
  - destruct (Nat.ltb_spec w (String.length k)) as [L|L]; [discriminate|].
    destruct (field_cells w k seqs) as [cells|] eqn:C; [|discriminate]. cbn [bind].
    destruct (seqs_to_str w keys seqs) as [more|] eqn:M; [|discriminate]. intros [= <-].
    destruct (IH _ _ M) as (lines & -> & F). destruct (cells_ok _ _ _ _ C) as (cs & -> & FC).
    exists ((ljust w k ++ cat cs ++ crlf)%string :: lines). split.
    + cbn [cat]. rewrite <- !append_assoc_s. reflexivity.
    + constructor; [|exact F]. exists (ljust w k), cs. split; [reflexivity|]. split; [apply ljust_padded; exact L|exact FC].
Qed.
Lemma shown_unique v s : shown v s -> s = fval_text v.
Proof. destruct v; cbn; auto. Qed.
Lemma cells_total w k seqs : (forall d, In d seqs -> exists v s, sget d k = Some v /\ shown v s /\ (String.length s <= w)%nat) <->
  exists text, field_cells w k seqs = Ok text.
Proof.
  induction seqs as [|d seqs IH]; cbn [field_cells].
  - split; [eauto|]. intros _ d [].
  - split.
    + intros F. destruct (F d (or_introl eq_refl)) as (v & s & G & S0 & L). rewrite G. apply shown_unique in S0. subst s.
      destruct (Nat.ltb_spec w (String.length (fval_text v))) as [X|_]; [lia|].
      destruct (proj1 IH) as (text & T). { intros x X. apply F. right. exact X. } rewrite T. cbn [bind]. eauto.
    + intros (text & T) x [<-|X].
      * destruct (sget d k) as [v|] eqn:G; [|discriminate]. destruct (Nat.ltb_spec w (String.length (fval_text v))) as [L|L]; [discriminate|].
        exists v, (fval_text v). split; [reflexivity|]. split; [apply shown_text|exact L].
      * destruct (sget d k) as [v|]; [|discriminate]. destruct (_ <? _)%nat; [discriminate|].
        destruct (field_cells w k seqs) as [more|]; [|discriminate]. apply (proj2 IH); eauto.
Qed.
Theorem table_fits w : forall keys seqs, fits w keys seqs <-> exists text, seqs_to_str w keys seqs = Ok text.
Proof.
  induction keys as [|k keys IH]; intros seqs; cbn [seqs_to_str].
  - split; [eauto|]. intros _ k [].
  - split.
    + intros F. destruct (F k (or_introl eq_refl)) as (L & C). destruct (Nat.ltb_spec w (String.length k)) as [X|_]; [lia|].
      apply cells_total in C. destruct C as (cs & ->). cbn [bind].
      destruct (proj1 (IH seqs)) as (more & ->). { intros x X. apply F. right. exact X. } cbn [bind]. eauto.
    + destruct (Nat.ltb_spec w (String.length k)) as [X|L]; [intros (t & T); discriminate T|].
      destruct (field_cells w k seqs) as [cs|] eqn:C; [|intros (t & T); discriminate T]. cbn [bind].
      destruct (seqs_to_str w keys seqs) as [more|] eqn:M; [|intros (t & T); discriminate T]. intros _ x [<-|X].
      * split; [exact L|]. apply cells_total. eauto.
      * apply (proj2 (IH seqs)); eauto.
Qed.
Lemma blocks_last : forall techs num off segs, techs <> [] -> laid_out num off segs (map fst techs) ->
  exists t, last_error techs = Some t /\ (if tp_loops (fst t) then tp_num (fst t) + 1 else tp_num (fst t))%Z = (num - 1 + blocks techs)%Z.
Proof.
  induction techs as [|t techs IH]; intros num off segs NE L; [contradiction|].
  destruct segs as [|seg segs]; [contradiction L|]. cbn [map laid_out] in L. destruct L as (A & _ & _ & _ & L).
  change (blocks (t :: techs)) with (tech_width (fst t) + blocks techs)%Z. destruct techs as [|t' techs].
  - exists t. split; [reflexivity|]. unfold blocks, tech_width. cbn [fold_right]. destruct (tp_loops (fst t)); lia.
  - destruct (IH _ _ _ ltac:(discriminate) L) as (u & E & N). exists u. split; [exact E|]. rewrite N. lia.
Qed.

Lemma ljust_line name value : (String.length name < 20)%nat -> entry_line name value (ljust 20 name ++ ljust 20 value ++ crlf).
Proof.
  intro L. exists (spaces (20 - String.length name)), (spaces (20 - String.length value)). split; [|split].
  - unfold ljust. rewrite <- !append_assoc_s. reflexivity.
  - rewrite spaces_length. lia.
  - intros a [H|H]; eapply spaces_only; exact H.
Qed.
Lemma blocks_written keys : forall techs num off segs text, laid_out num off segs (map fst techs) -> techniques_to_str keys techs = Ok text ->
  technique_blocks keys num techs text.
Proof.
  induction techs as [|[tp seqs] techs IH]; intros num off segs text L T.
  - injection T as <-. constructor.
  - destruct segs as [|seg segs]; [contradiction L|]. cbn [map laid_out fst] in L. destruct L as (A & _ & _ & _ & L).
    cbn [techniques_to_str] in T. unfold technique_to_str in T. destruct (seqs_to_str 20 keys seqs) as [body|] eqn:B; [|discriminate T]. cbn [bind] in T.
    rewrite A in T. unfold tech_width in L. destruct (tp_loops tp) eqn:P; cbn [bind] in T.
    + destruct (techniques_to_str keys techs) as [more|] eqn:M; [|discriminate T]. apply (f_equal (fun r => match r with Ok t => t | Err _ => text end)) in T. cbn [bind] in T. cbv beta iota in T. rewrite <- T.
      pose proof (loop_block keys num tp seqs body _ _ techs more P (table_written _ _ _ _ B) (ljust_line "goto Ne" (str_int num) ltac:(cbn; lia))
        (ljust_line "nt times" (str_int (tp_count tp)) ltac:(cbn; lia)) (IH _ _ _ _ L eq_refl)) as R.
      unfold technique_block in R. rewrite <- !append_assoc_s in R. rewrite <- !append_assoc_s. exact R.
    + destruct (techniques_to_str keys techs) as [more|] eqn:M; [|discriminate T]. injection T as <-.
      exact (one_block keys num tp seqs body techs more P (table_written _ _ _ _ B) (IH _ _ _ _ L eq_refl)).
Qed.
Lemma techniques_converted blank c qm e : forall tps techs, convert_techniques blank c qm e tps = Ok techs ->
  map (fun t => fst (fst t)) techs = tps /\
  forall tp seqs nums, In (tp, seqs, nums) techs -> exists raw,
    convert_steps_to_seqs blank (tp_steps tp) (tp_offset tp) e = Ok (raw, nums) /\ seqs = apply_seq_mappings c (map (fun f => f (tp_num tp)) qm) 0 raw.
Proof.
  induction tps as [|tp tps IH]; intros techs; cbn [convert_techniques].
  - intros [= <-]. split; [reflexivity|]. intros ? ? ? [].
  - destruct (convert_steps_to_seqs _ _ _ _) as [[raw nums]|] eqn:C; [|discriminate]. cbn [bind fst snd].
    destruct (convert_techniques _ _ _ _ tps) as [more|]; [|discriminate]. cbn [bind]. intros [= <-].
    destruct (IH more eq_refl) as (A & B). split; [cbn [map fst]; congruence|].
    intros tp' seqs' nums' [[= <- <- <-]|M]; [|eauto]. exists raw. split; [exact C|reflexivity].
Qed.
Lemma last_split {A} : forall (l : list A) x, last_error l = Some x -> l = firstn (length l - 1) l ++ [x].
Proof.
  induction l as [|a l IH]; intros x; [discriminate|]. destruct l as [|b l].
  - intros [= ->]. reflexivity.
  - intros H. cbn [last_error] in H. specialize (IH x H). cbn [length Nat.sub] in IH |- *. rewrite Nat.sub_0_r in IH. cbn [firstn app]. f_equal. exact IH.
Qed.
Lemma procedure_converted blank c sm qm steps techs rs : convert blank c sm qm steps = Ok (techs, rs) ->
  exists kept segs last, apply_step_mappings c sm 1 steps = Ok (kept ++ [last]) /\ st_type last = "End"%string /\
    concat segs = kept /\ laid_out 1 0 segs (map (fun t => fst (fst t)) techs) /\
    forall tp seqs nums, In (tp, seqs, nums) techs -> exists raw,
      convert_steps_to_seqs blank (tp_steps tp) (tp_offset tp) (Z.of_nat (length kept) + 1) = Ok (raw, nums) /\
      seqs = apply_seq_mappings c (map (fun f => f (tp_num tp)) qm) 0 raw.
Proof.
  unfold convert. destruct (apply_step_mappings c sm 1 steps) as [l|]; [|discriminate]. cbn [bind].
  destruct (last_error l) as [x|] eqn:LE; [|discriminate]. destruct (String.eqb_spec (st_type x) "End") as [EQ|]; [|discriminate]. cbn [negb].
  destruct (partition_steps _) as [tps|] eqn:P; [|discriminate]. cbn [bind].
  destruct (convert_techniques _ _ _ _ _) as [ts|] eqn:CT; [|discriminate]. cbn [bind].
  destruct (create_cycle_advancement_rules _); [|discriminate]. intros [= -> _].
  apply last_split in LE. set (kept := firstn (length l - 1) l) in *.
  destruct (partition_covers kept tps P) as (segs & CC & LO).
  destruct (techniques_converted _ _ _ _ _ _ CT) as (A & B).
  exists kept, segs, x. split; [f_equal; exact LE|]. split; [exact EQ|]. split; [exact CC|]. rewrite A. split; [exact LO|].
  intros tp seqs nums M. destruct (B tp seqs nums M) as (raw & R & E). exists raw. split; [|exact E].
  replace (Z.of_nat (length kept) + 1)%Z with (Z.of_nat (length l)); [exact R|].
  pose proof (f_equal (@length _) LE) as LL. rewrite app_length in LL. cbn [length] in LL. lia.
Qed.
