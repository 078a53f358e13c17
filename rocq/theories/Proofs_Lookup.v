(** Proofs about finding the parameters of a run. *)
From Coq Require Import Qabs Lqa Psatz Permutation Sorting.Sorted.
From Verif Require Import Py Num Model_Text Model_Cmd Spec_Cmd Model_Diagnostic Model_Summary Model_Features Proofs_Diagnostic Proofs_Strings Proofs_Featurize Proofs_Frames Proofs_Structure Proofs_Life Proofs_Cmd.
From Verif Require Import Proofs_Numeral Proofs_Text Model_Lookup Spec_Lookup.

(** ** Names *)
Lemma hd_split c a b : char_free c a -> hd ""%string (str_split (String c "") (a ++ b)) = (a ++ hd ""%string (str_split (String c "") b))%string.
Proof.
  intros F. destruct (contains (String c "") b) eqn:E.
  - destruct (first_exists _ _ E) as (x & y & -> & X). rewrite <- app_assoc_s. cbn [append].
    pose proof (first_at_no (String c "") x y ltac:(discriminate) X) as FX.
    rewrite str_split_char by (apply char_free_app; split; assumption). cbn [hd].
    rewrite str_split_char by exact FX. reflexivity.
  - rewrite (str_split_none _ _ E). cbn [hd]. rewrite str_split_none; [reflexivity|].
    apply char_free_app. split; assumption.
Qed.
Lemma sequence_parts p n tail : plain p -> plain n -> ending tail ->
  exists rest, str_split "_" (hd ""%string (str_split "." (p ++ "_" ++ n ++ tail))) = p :: n :: rest.
Proof.
  intros (_ & P1 & P2 & _) (_ & N1 & N2 & _) (_ & T).
  replace (p ++ "_" ++ n ++ tail)%string with ((p ++ "_" ++ n) ++ tail)%string by (rewrite !app_assoc_s; reflexivity).
  rewrite hd_split by (repeat (apply char_free_app; split); try assumption; reflexivity).
  replace ((p ++ "_" ++ n) ++ hd "" (str_split "." tail))%string with (p ++ String "_" (n ++ hd ""%string (str_split "." tail)))%string
    by (rewrite app_assoc_s; reflexivity).
  rewrite str_split_char by exact P1. destruct T as [->|(t & [->| ->])].
  - cbn [str_split split_aux rev_string hd]. rewrite app_nil_s, str_split_none by exact N1. eauto.
  - change (String "_" t) with ("_" ++ t)%string. rewrite hd_split by reflexivity. cbn [append]. rewrite str_split_char by exact N1. eauto.
  - change (String "." t) with ("" ++ String "." t)%string. rewrite str_split_char by reflexivity. cbn [hd]. rewrite app_nil_s, str_split_none by exact N1. eauto.
Qed.
Lemma run_sequence p n path : plain p -> plain n -> run_file p n path -> exists rest, get_project_sequence path = p :: n :: rest.
Proof.
  intros P N (tail & T & R). unfold get_project_sequence.
  assert (F : slash_free (p ++ "_" ++ n ++ tail)).
  { unfold slash_free. destruct P as (_ & _ & _ & P), N as (_ & _ & _ & N), T as (T & _).
    apply char_free_app; split; [exact P|]. apply char_free_app; split; [reflexivity|]. apply char_free_app; split; assumption. }
  destruct R as [->|(dir & ->)].
  - unfold basename. rewrite (str_split_none "/" _ F). cbn [last]. apply sequence_parts; assumption.
  - rewrite basename_last by exact F. apply sequence_parts; assumption.
Qed.
Lemma plain_visible p : plain p -> prefix "." p = false.
Proof.
  intros (N & _ & D & _). destruct (prefix "." p) eqn:E; [|reflexivity]. apply Proofs_Diagnostic.prefix_iff in E as (r & ->).
  cbn [append] in D. apply char_free_cons in D as (D & _). congruence.
Qed.
Lemma matches_begins p f : plain p -> (matches p f = true <-> begins p f).
Proof.
  intros P. unfold matches, begins. rewrite andb_true_iff, Proofs_Diagnostic.prefix_iff. split; [tauto|]. intros (r & ->). split; [eauto|].
  apply orb_true_iff. left. apply negb_true_iff. destruct (prefix "." (p ++ r)) eqn:E; [|reflexivity]. apply Proofs_Diagnostic.prefix_iff in E as (x & E).
  destruct P as (N & _ & D & _). destruct p as [|c p]; [congruence|]. injection E as -> _. apply char_free_cons in D as (D & _). congruence.
Qed.
Lemma glob_only dir p t : plain p -> only_file dir p t -> exists f, glob dir p = [(f, Some t)].
Proof.
  intros P (a & f & b & -> & B & F). exists f. unfold glob. rewrite filter_app. cbn [filter fst].
  rewrite (proj2 (matches_begins p f P) B). apply Forall_app in F as (FA & FB).
  assert (Z : forall l, Forall (fun e : string * option ptable => ~ begins p (fst e)) l -> filter (fun e => matches p (fst e)) l = []).
  { induction l as [|e l IH]; intros H; [reflexivity|]. cbn. destruct (matches p (fst e)) eqn:M.
    - apply matches_begins in M; [|exact P]. destruct (Forall_inv H M).
    - apply IH. exact (Forall_inv_tail H). }
  rewrite !Z by assumption. reflexivity.
Qed.
Lemma glob_none dir p : plain p -> Forall (fun e => ~ begins p (fst e)) dir -> glob dir p = [].
Proof.
  intros P. unfold glob. induction dir as [|e l IH]; intros H; [reflexivity|]. cbn. destruct (matches p (fst e)) eqn:M.
  - apply matches_begins in M; [|exact P]. destruct (Forall_inv H M).
  - apply IH. exact (Forall_inv_tail H).
Qed.
Lemma digits_separate ds c : Forall is_digit ds -> In c ["."; "_"; "/"]%char -> char_free c (digits_text ds).
Proof.
  intros F I. induction F as [|d ds D F IH]; [reflexivity|]. cbn [digits_text]. apply char_free_cons. split; [|exact IH].
  unfold is_digit in D. clear -D I. intros <-. do 10 (destruct d as [|d]; [cbn in I; intuition discriminate|]). lia.
Qed.
(** The result in terms of project and number. *)
Lemma lookup_only p n k dir t path : plain p -> plain n -> parse_int n = Some k -> run_file p n path -> only_file dir p t ->
  get_protocol_parameters dir path = match filter (fun r => Z.eqb (p_seq r) k) (p_rows t) with [] => Ok None | rows => Ok (Some (rows, t)) end.
Proof.
  intros P N K R O. unfold get_protocol_parameters. destruct (run_sequence p n path P N R) as (rest & ->). cbn [hd].
  destruct (glob_only dir p t P O) as (f & ->). cbn [read_csv bind]. unfold py_int. rewrite K. cbn [bind]. reflexivity.
Qed.
Lemma filter_one (l : list prow) r : NoDup (map p_seq l) -> In r l -> filter (fun x => Z.eqb (p_seq x) (p_seq r)) l = [r].
Proof.
  induction l as [|x l IH]; intros ND I; [destruct I|]. inversion ND as [|? ? NI ND']; subst. cbn [filter].
  assert (Z : forall l, ~ In (p_seq r) (map p_seq l) -> filter (fun x => Z.eqb (p_seq x) (p_seq r)) l = []).
  { clear. induction l as [|y l IH]; intros H; [reflexivity|]. cbn in *. destruct (Z.eqb_spec (p_seq y) (p_seq r)); [tauto|]. apply IH. tauto. }
  destruct I as [->|I].
  - rewrite Z.eqb_refl. rewrite Z by exact NI. reflexivity.
  - destruct (Z.eqb_spec (p_seq x) (p_seq r)) as [E|E]; [|apply IH; assumption]. exfalso. apply NI. rewrite E. apply in_map. exact I.
Qed.
Lemma filter_zero (l : list prow) k : (forall r, In r l -> p_seq r <> k) -> filter (fun x => Z.eqb (p_seq x) k) l = [].
Proof.
  induction l as [|x l IH]; intros H; [reflexivity|]. cbn. destruct (Z.eqb_spec (p_seq x) k) as [E|E]; [|apply IH; firstorder].
  destruct (H x (or_introl eq_refl) E).
Qed.

(** ** Values *)
Lemma sget_combine (cols : list string) : NoDup cols -> forall (cells : list cell) c v, length cells = length cols ->
  (sget (combine cols cells) c = Some v <-> exists i, nth_error cols i = Some c /\ nth_error cells i = Some v).
Proof.
  unfold sget. induction cols as [|x cols IH]; intros ND cells c v L; destruct cells as [|w cells]; try discriminate.
  - split; [discriminate|]. intros ([|i] & A & _); discriminate.
  - cbn [combine d_get]. inversion ND as [|? ? NI ND']; subst. destruct (String.eqb_spec c x) as [->|E].
    + split; [intros [= ->]; exists 0%nat; split; reflexivity|]. intros ([|i] & A & B); [injection B as ->; reflexivity|].
      exfalso. apply NI. exact (nth_error_In cols i A).
    + rewrite (IH ND') by (cbn in L; lia). split.
      * intros (i & A & B). exists (S i). split; assumption.
      * intros ([|i] & A & B); [injection A as ->; congruence|]. exists i. split; assumption.
Qed.
Lemma value_holds t c r v : well_formed t -> In r (p_rows t) -> (value t c r = Ok v <-> holds t c r v).
Proof.
  intros (ND & NS & F) I. unfold value, holds. rewrite Forall_forall in F. specialize (F r I). destruct (String.eqb_spec c "seq_num") as [->|E].
  - split; [intros [= <-]; auto|]. intros [(_ & ->)|(i & A & _)]; [reflexivity|]. destruct NS. exact (nth_error_In _ _ A).
  - pose proof (sget_combine (p_columns t) ND (p_cells r) c) as S. split.
    + destruct (sget _ c) eqn:G; [|discriminate]. intros [= <-]. right. apply S; [exact F | reflexivity].
    + intros [(? & _)|H]; [congruence|]. rewrite (proj2 (S v F) H). reflexivity.
Qed.
Lemma has_column_iff t c : has_column t c = true <-> column t c.
Proof.
  unfold has_column, column. rewrite orb_true_iff, String.eqb_eq, str_in_iff. tauto.
Qed.
Lemma value_total t c r : well_formed t -> In r (p_rows t) -> column t c -> exists v, value t c r = Ok v.
Proof.
  intros W I [->|C]; [eexists; reflexivity|]. apply In_nth_error in C as (i & C).
  assert (L : (i < length (p_cells r))%nat).
  { destruct W as (_ & _ & F). rewrite Forall_forall in F. rewrite (F r I). apply nth_error_Some. congruence. }
  apply nth_error_Some in L. destruct (nth_error (p_cells r) i) as [v|] eqn:N; [|congruence].
  exists v. apply value_holds; [exact W | exact I|]. right. eauto.
Qed.
Lemma holds_det t c r v w : well_formed t -> In r (p_rows t) -> holds t c r v -> holds t c r w -> v = w.
Proof. intros W I A B. apply value_holds in A; [|assumption..]. apply value_holds in B; [|assumption..]. congruence. Qed.
Lemma mapM_total {A B} (f : A -> result B) l : (forall x, In x l -> exists y, f x = Ok y) -> exists ys, mapM f l = Ok ys.
Proof.
  induction l as [|x l IH]; intros H; [eexists; reflexivity|]. destruct (H x (or_introl eq_refl)) as (y & Y). destruct IH as (ys & E); [intros z I; apply H; right; exact I|].
  exists (y :: ys). cbn. rewrite Y. cbn. rewrite E. reflexivity.
Qed.
Lemma col_cells t c vs x : well_formed t -> mapM (value t c) (p_rows t) = Ok vs ->
  (In (Some x) (map cell_num vs) <-> exists r, In r (p_rows t) /\ holds t c r (Number x)).
Proof.
  intros W M. apply mapM_ok in M. rewrite in_map_iff. split.
  - intros (v & E & I). destruct v; cbn in E; try discriminate. injection E as ->.
    assert (G : forall l, Forall2 (fun r v => value t c r = Ok v) l vs -> incl l (p_rows t) -> exists r, In r l /\ holds t c r (Number x)).
    { clear M. induction vs as [|v vs IH]; intros l F S; [destruct I|]. inversion F as [|r ? l' ? V F']; subst. destruct I as [->|I].
      - exists r. split; [left; reflexivity|]. apply value_holds; [exact W | apply S; left; reflexivity | exact V].
      - destruct (IH I l' F') as (r' & A & B); [intros z Z; apply S; right; exact Z|]. exists r'. split; [right; exact A | exact B]. }
    exact (G _ M (incl_refl _)).
  - intros (r & I & H). apply value_holds in H; [|exact W|exact I].
    exists (Number x). split; [reflexivity|]. clear W. induction M as [|r' v l vs V M IH]; [destruct I|]. destruct I as [->|I]; [left; congruence | right; auto].
Qed.
Lemma col_lowest t c vs : well_formed t -> mapM (value t c) (p_rows t) = Ok vs -> lowest t c (col_min (map cell_num vs)).
Proof.
  intros W M. pose proof (fun x => col_cells t c vs x W M) as C. pose proof (col_min_spec (map cell_num vs)) as S. unfold lowest. destruct (col_min _) as [x|].
  - destruct S as (A & B). split; [apply C; exact A|]. intros r y I H. apply B, C. eauto.
  - intros r y I H. apply (S y), C. eauto.
Qed.
Lemma col_highest t c vs : well_formed t -> mapM (value t c) (p_rows t) = Ok vs -> highest t c (col_max (map cell_num vs)).
Proof.
  intros W M. pose proof (fun x => col_cells t c vs x W M) as C. pose proof (col_max_spec (map cell_num vs)) as S. unfold highest. destruct (col_max _) as [x|].
  - destruct S as (A & B). split; [apply C; exact A|]. intros r y I H. apply B, C. eauto.
  - intros r y I H. apply (S y), C. eauto.
Qed.

(** ** Diagnostics *)
Lemma steps_of_in raw c s : In s (steps_of raw c) <-> recorded raw c s.
Proof.
  unfold steps_of, recorded. rewrite Proofs_Diagnostic.uniq_in, in_map_iff. split.
  - intros ([a b] & E & I). apply filter_In in I as (I & F). cbn in *. apply Z.eqb_eq in F. subst. exact I.
  - intros I. eexists. split; [|apply filter_In; split; [exact I | apply Z.eqb_refl]]. reflexivity.
Qed.
Lemma same_set_iff raw c d : same_set (steps_of raw c) (steps_of raw d) = true <-> same_steps raw c d.
Proof.
  unfold same_set, same_steps. rewrite andb_true_iff, !forallb_forall. setoid_rewrite mem_z_iff. setoid_rewrite steps_of_in. firstorder.
Qed.
Lemma step_count_iff raw c n : step_count raw c n <-> length (steps_of raw c) = n.
Proof.
  split.
  - intros (l & ND & I & <-). apply Permutation_length. apply NoDup_Permutation; [apply Proofs_Diagnostic.uniq_nodup | exact ND |]. intros s. rewrite steps_of_in, I. tauto.
  - intros <-. exists (steps_of raw c). split; [apply Proofs_Diagnostic.uniq_nodup|]. split; [intros s; apply steps_of_in | reflexivity].
Qed.
Lemma pattern_iff raw c d : pattern_eqb (pattern raw c) (pattern raw d) = true <-> same_counts raw c d.
Proof.
  unfold same_counts, pattern. cbn [map pattern_eqb]. rewrite !andb_true_iff, !Nat.eqb_eq. split.
  - intros (A & B & C & D & E & _) k K. exists (length (steps_of raw (c + k))). rewrite !step_count_iff. split; [reflexivity|].
    assert (k = 0 \/ k = 1 \/ k = 2 \/ k = 3 \/ k = 4)%Z as [->|[->|[->|[->| ->]]]] by lia; symmetry; assumption.
  - intros H. assert (G : forall k, (0 <= k < 5)%Z -> length (steps_of raw (c + k)) = length (steps_of raw (d + k))).
    { intros k K. destruct (H k K) as (n & A & B). rewrite step_count_iff in A, B. congruence. }
    repeat split; apply G; lia.
Qed.
Lemma last_cycle_spec raw : raw <> [] -> (exists s, recorded raw (last_cycle raw) s) /\ forall c s, recorded raw c s -> (c <= last_cycle raw)%Z.
Proof.
  intros NE. unfold last_cycle. destruct raw as [|r0 raw]; [congruence|]. clear NE. set (z := w_cycle r0).
  assert (B : forall l c s, recorded l c s -> (c <= fold_right (fun r m => Z.max (w_cycle r) m) z l)%Z).
  { unfold recorded. induction l as [|r l IH]; intros c s I; [destruct I|]. cbn [fold_right]. destruct I as [->|I]; [cbn [w_cycle]; lia|]. specialize (IH _ _ I). lia. }
  split; [|exact (B _)].
  assert (A : forall l, fold_right (fun r m => Z.max (w_cycle r) m) z l = z \/ exists s, recorded l (fold_right (fun r m => Z.max (w_cycle r) m) z l) s).
  { unfold recorded. induction l as [|r l IH]; [left; reflexivity|]. cbn [fold_right].
    destruct (Z.max_spec (w_cycle r) (fold_right (fun r m => Z.max (w_cycle r) m) z l)) as [(_ & ->)|(_ & ->)].
    - destruct IH as [IH|(s & IH)]; [left; exact IH | right; exists s; right; exact IH].
    - right. exists (w_step r). left. destruct r; reflexivity. }
  destruct (A (r0 :: raw)) as [E|H]; [|exact H]. rewrite E. exists (w_step r0). left. unfold z. destruct r0; reflexivity.
Qed.
Lemma near_iff raw c : raw <> [] -> ((last_cycle raw - 5 - 1 <=? c)%Z = true <-> near_the_end raw c).
Proof.
  intros NE. destruct (last_cycle_spec raw NE) as ((s & A) & B). unfold near_the_end. rewrite Z.leb_le. split.
  - intros H d s' R. specialize (B d s' R). lia.
  - intros H. specialize (H _ _ A). lia.
Qed.
Lemma starts_iff raw start c : In c (diagnostic_starts raw start) <-> diagnostic_start raw start c.
Proof.
  unfold diagnostic_starts, diagnostic_start. rewrite filter_In, Proofs_Diagnostic.uniq_in.
  assert (E : In c (map w_cycle raw) <-> exists s, recorded raw c s).
  { unfold recorded. rewrite in_map_iff. split; [intros ([a b] & <- & I); exists b; exact I | intros (s & I); eexists; split; [|exact I]; reflexivity]. }
  rewrite E.
  split; intros ((s & R) & H); (split; [eauto|]).
  - destruct (same_set _ _ || same_set _ _) eqn:S.
    + apply orb_true_iff in S as [S|S]; apply same_set_iff in S; [left; exact S|]. right. left. replace (start + 6)%Z with (1 + start + 5)%Z by lia. exact S.
    + apply andb_true_iff in H as (H1 & H2). right. right. split; [apply near_iff in H1; [exact H1 | intros ->; destruct R]|].
      apply orb_true_iff in H2 as [H2|H2]; apply pattern_iff in H2; [left; exact H2|]. right. replace (start + 6)%Z with (1 + start + 5)%Z by lia. exact H2.
  - replace (start + 6)%Z with (1 + start + 5)%Z in H by lia.
    destruct (same_set _ _ || same_set _ _) eqn:S; [reflexivity|]. apply orb_false_iff in S as (S1 & S2).
    destruct H as [H|[H|(H1 & H2)]]; [apply same_set_iff in H; congruence..|].
    apply andb_true_iff. split; [apply near_iff; [intros ->; destruct R | exact H1]|]. apply orb_true_iff. destruct H2 as [H2|H2]; apply pattern_iff in H2; tauto.
Qed.

(** ** Steps *)
Lemma protocol_run p n protocol : plain p -> plain n -> run_protocol p n protocol -> run_file p n (protocol_name protocol) \/ protocol_name protocol = basename protocol /\ run_file p n protocol.
Proof.
  intros P N [(F & R)|(dir & name & -> & F & R)]; unfold protocol_name.
  - unfold char_free in F. rewrite F. right. auto.
  - left. assert (C : contains "\" (dir ++ "\" ++ name) = true).
    { destruct (contains "\" (dir ++ "\" ++ name)) eqn:E; [reflexivity|]. apply char_free_app in E as (_ & E). apply char_free_app in E as (E & _). discriminate. }
    rewrite C. cbn [append]. rewrite Proofs_Procedure_Whole.last_split, str_split_none by exact F. exact R.
Qed.
Lemma sequence_basename path : get_project_sequence (basename path) = get_project_sequence path.
Proof.
  unfold get_project_sequence. f_equal. f_equal. f_equal.
  assert (F : contains "/" (basename path) = false).
  { unfold basename. apply (split_pieces "/" path); [discriminate|]. pose proof (str_split_nonempty "/" path) as NE. destruct (exists_last NE) as (a & x & E). rewrite E, last_last. apply in_or_app. right. left. reflexivity. }
  unfold basename at 1. rewrite (str_split_none _ _ F). reflexivity.
Qed.
Lemma lookup_protocol p n k dir t protocol : plain p -> plain n -> parse_int n = Some k -> run_protocol p n protocol -> only_file dir p t ->
  get_protocol_parameters dir (protocol_name protocol) = match filter (fun r => Z.eqb (p_seq r) k) (p_rows t) with [] => Ok None | rows => Ok (Some (rows, t)) end.
Proof.
  intros P N K R O. destruct (protocol_run p n protocol P N R) as [R'|(E & R')].
  - apply (lookup_only p n); assumption.
  - rewrite <- (lookup_only p n k dir t protocol) by assumption. unfold get_protocol_parameters. rewrite E, sequence_basename. reflexivity.
Qed.

Lemma sset_length {V} (d : list (string * V)) k v : length (sset d k v) = if smem d k then length d else S (length d).
Proof.
  unfold sset, smem, d_mem. induction d as [|[a b] d IH]; [reflexivity|]. cbn [d_set d_get]. destruct (String.eqb k a); [reflexivity|].
  cbn [length]. rewrite IH. destruct (d_get _ d k); reflexivity.
Qed.
Lemma smem_iff {V} (d : list (string * V)) k : smem d k = true <-> In k (map fst d).
Proof.
  unfold smem, d_mem. induction d as [|[a b] d IH]; cbn [d_get map fst]; [split; [discriminate | intros []]|].
  destruct (String.eqb_spec k a) as [->|E]; [split; [left; reflexivity | reflexivity]|]. rewrite IH. split; [right; assumption|]. intros [H|H]; [cbn in H; congruence | exact H].
Qed.
Lemma annotate_length label steps : forall d0 d, annotate label steps d0 = Ok d -> (length d <= length d0 + length steps)%nat.
Proof.
  induction steps as [|s r IH]; intros d0 d; cbn [annotate]; [intros [= <-]; lia|]. destruct (label s) as [l|]; [|discriminate]. cbn [bind]. intros H. apply IH in H.
  destruct l as [k|]; [rewrite sset_length in H; destruct (smem d0 k)|]; cbn [length]; lia.
Qed.
Lemma annotate_full label steps : forall d0 d, annotate label steps d0 = Ok d -> length d = (length d0 + length steps)%nat -> NoDup (map fst d0) ->
  exists ks, d = d0 ++ combine ks steps /\ NoDup (map fst d0 ++ ks) /\ Forall2 (fun s k => label s = Ok (Some k)) steps ks.
Proof.
  induction steps as [|s r IH]; intros d0 d; cbn [annotate].
  - intros [= <-] _ ND. exists []. rewrite app_nil_r. split; [reflexivity|]. rewrite app_nil_r. split; [exact ND | constructor].
  - destruct (label s) as [l|] eqn:L; [|discriminate]. cbn [bind length]. intros H LE ND. pose proof (annotate_length _ _ _ _ H) as B.
    destruct l as [k|]; [|lia]. rewrite sset_length in B. destruct (smem d0 k) eqn:M; [lia|].
    assert (NI : ~ In k (map fst d0)) by (rewrite <- smem_iff; congruence). rewrite sset_fresh in H by exact NI.
    destruct (IH _ _ H) as (ks & -> & ND' & F).
    + rewrite app_length. cbn [length]. lia.
    + rewrite map_app. cbn [map fst]. apply NoDup_app_iff. split; [exact ND|]. split; [repeat constructor; intros []|]. intros x X [<-|[]]. exact (NI X).
    + exists (k :: ks). split; [rewrite <- app_assoc; reflexivity|]. split; [|constructor; assumption].
      rewrite map_app, <- app_assoc in ND'. exact ND'.
Qed.
Lemma annotate_run label steps : forall ks d0, Forall2 (fun s k => label s = Ok (Some k)) steps ks -> NoDup (map fst d0 ++ ks) -> annotate label steps d0 = Ok (d0 ++ combine ks steps).
Proof.
  induction steps as [|s r IH]; intros ks d0 F ND; inversion F as [|? k ? ks' L F']; subst; cbn [annotate combine]; [rewrite app_nil_r; reflexivity|].
  rewrite L. cbn [bind]. assert (NI : ~ In k (map fst d0)) by (apply NoDup_remove_2 in ND; intros X; apply ND, in_or_app; left; exact X).
  rewrite sset_fresh by exact NI. rewrite (IH ks'); [rewrite <- app_assoc; reflexivity | exact F' |]. rewrite map_app, <- app_assoc. exact ND.
Qed.
Lemma annotate_iff label steps d :
  (annotate label steps [] = Ok d /\ length steps = length d) <->
  exists ks, d = combine ks steps /\ NoDup ks /\ Forall2 (fun s k => label s = Ok (Some k)) steps ks.
Proof.
  split.
  - intros (H & L). destruct (annotate_full _ _ _ _ H) as (ks & -> & ND & F); [cbn [length]; lia | constructor|].
    exists ks. split; [reflexivity|]. split; assumption.
  - intros (ks & -> & ND & F). split; [apply (annotate_run label steps ks []); assumption|].
    assert (E : length steps = length ks) by (clear - F; induction F; cbn; congruence). rewrite combine_length. lia.
Qed.

(** *** Medians *)
Lemma insert_q_ext x y l l' : x == y -> Forall2 Qeq l l' -> Forall2 Qeq (insert_q x l) (insert_q y l').
Proof.
  intros E F. induction F as [|a b l l' AB F IH]; cbn [insert_q]; [repeat constructor; exact E|].
  assert (B : Qle_bool x a = Qle_bool y b).
  { destruct (Qle_bool x a) eqn:A1, (Qle_bool y b) eqn:B1; try reflexivity; exfalso.
    - apply Qle_bool_iff in A1. assert (Qle_bool y b = true) by (apply Qle_bool_iff; lra). congruence.
    - apply Qle_bool_iff in B1. assert (Qle_bool x a = true) by (apply Qle_bool_iff; lra). congruence. }
  rewrite B. destruct (Qle_bool y b); repeat constructor; assumption.
Qed.
Lemma sort_q_ext l l' : Forall2 Qeq l l' -> Forall2 Qeq (sort_q l) (sort_q l').
Proof. induction 1; cbn [sort_q]; [constructor | apply insert_q_ext; assumption]. Qed.
Lemma all_some_map {A} (l : list A) : all_some (map Some l) = Some l.
Proof. apply all_some_iff. reflexivity. Qed.
Lemma median_total xs : xs <> [] -> exists m, median (map Some xs) = Some m.
Proof.
  intros NE. unfold median. rewrite all_some_map. assert (L : length (sort_q xs) = length xs) by (apply Permutation_length, sort_q_perm).
  assert (P : (0 < length (sort_q xs))%nat) by (rewrite L; destruct xs; [congruence | cbn; lia]). cbv zeta.
  assert (A : (length (sort_q xs) / 2 < length (sort_q xs))%nat) by (apply Nat.div_lt; lia).
  assert (B : ((length (sort_q xs) - 1) / 2 < length (sort_q xs))%nat) by (eapply Nat.le_lt_trans; [apply Nat.div_le_mono with (b := length (sort_q xs)); lia | exact A]).
  apply nth_error_Some in A, B. destruct (nth_error _ (_ / 2)) as [a|]; [|congruence]. destruct (nth_error _ ((_ - 1) / 2)) as [b|]; [|congruence]. eauto.
Qed.
Lemma F2_nth_q l l' i a : Forall2 Qeq l l' -> nth_error l i = Some a -> exists b, nth_error l' i = Some b /\ a == b.
Proof. intros F. revert i. induction F as [|x y l l' E F IH]; intros [|i] N; try discriminate; [injection N as <-; exists y; auto | apply IH; exact N]. Qed.
Lemma median_ext l l' m : Forall2 Qeq l l' -> median (map Some l) = Some m -> exists m', median (map Some l') = Some m' /\ m == m'.
Proof.
  intros F. unfold median. rewrite !all_some_map. pose proof (sort_q_ext _ _ F) as S.
  assert (L : length (sort_q l') = length (sort_q l)) by (clear - S; induction S; cbn; congruence). cbv zeta. rewrite L.
  destruct (nth_error (sort_q l) (_ / 2)) as [a|] eqn:A; [|discriminate]. destruct (nth_error (sort_q l) ((_ - 1) / 2)) as [b|] eqn:B; [|discriminate].
  destruct (F2_nth_q _ _ _ _ S A) as (a' & -> & EA). destruct (F2_nth_q _ _ _ _ S B) as (b' & -> & EB). intros [= <-]. eexists. split; [reflexivity|]. rewrite EA, EB. reflexivity.
Qed.
Lemma rhe_ext x y : x == y -> round_half_even x = round_half_even y.
Proof. intros E. apply Z.le_antisymm; apply rhe_mono; rewrite E; apply Qle_refl. Qed.

(** *** The measured quantities of a step *)
Lemma complete_filter cycle p : complete cycle -> complete (filter p cycle).
Proof. unfold complete. intros H. apply Forall_forall. intros r I. apply filter_In in I as (I & _). exact (proj1 (Forall_forall _ _) H r I). Qed.
Lemma complete_nonempty l : complete l -> l <> [] -> currents l <> [] /\ times l <> [].
Proof.
  unfold currents, times. intros C NE. destruct l as [|r l]; [congruence|]. destruct (Forall_inv C) as (A & B). cbn [map dropna].
  destruct (h_current r); [|congruence]. destruct (h_time r); [|congruence]. split; discriminate.
Qed.
Lemma in_dropna l x : In x (dropna l) <-> In (Some x) l.
Proof.
  induction l as [|[y|] l IH]; cbn [dropna In]; [tauto| |].
  - rewrite IH. split; (intros [H|H]; [left; congruence | right; exact H]).
  - rewrite IH. split; [right; assumption|]. intros [H|H]; [discriminate | exact H].
Qed.
Lemma max_greatest l : times l <> [] -> exists a, col_max (map h_time l) = Some a /\ greatest (times l) a.
Proof.
  intros NE. pose proof (col_max_spec (map h_time l)) as S. destruct (col_max _) as [a|].
  - exists a. split; [reflexivity|]. destruct S as (A & B). split; [apply in_dropna; exact A|]. intros y Y. apply B, in_dropna. exact Y.
  - exfalso. unfold times in NE. destruct (dropna (map h_time l)) as [|x r] eqn:D; [congruence|]. apply (S x), in_dropna. rewrite D. left. reflexivity.
Qed.
Lemma min_least l : times l <> [] -> exists a, col_min (map h_time l) = Some a /\ least (times l) a.
Proof.
  intros NE. pose proof (col_min_spec (map h_time l)) as S. destruct (col_min _) as [a|].
  - exists a. split; [reflexivity|]. destruct S as (A & B). split; [apply in_dropna; exact A|]. intros y Y. apply B, in_dropna. exact Y.
  - exfalso. unfold times in NE. destruct (dropna (map h_time l)) as [|x r] eqn:D; [congruence|]. apply (S x), in_dropna. rewrite D. left. reflexivity.
Qed.
Lemma takes_det l k d d' : takes l k d -> takes l k d' -> d == d'.
Proof.
  intros (a & b & (A1 & A2) & (B1 & B2) & ->) (a' & b' & (A1' & A2') & (B1' & B2') & ->).
  pose proof (A2 _ A1'). pose proof (A2' _ A1). pose proof (B2 _ B1'). pose proof (B2' _ B1). lra.
Qed.
Lemma durations l : complete l -> exists ds,
  map (fun k => spread (map h_time (filter (fun r => Z.eqb (h_counter r) k) l))) (uniq (map h_counter l)) = map Some ds /\ Forall2 (takes l) (uniq (map h_counter l)) ds.
Proof.
  intros C. assert (G : forall ks, (forall k, In k ks -> In k (map h_counter l)) -> exists ds,
    map (fun k => spread (map h_time (filter (fun r => Z.eqb (h_counter r) k) l))) ks = map Some ds /\ Forall2 (takes l) ks ds).
  { induction ks as [|k ks IH]; intros S; [exists []; split; [reflexivity | constructor]|].
    destruct IH as (ds & E & F); [intros x X; apply S; right; exact X|].
    assert (NE : filter (fun r => Z.eqb (h_counter r) k) l <> []).
    { specialize (S k (or_introl eq_refl)). apply in_map_iff in S as (r & <- & I). intros Z. assert (X : In r []) by (rewrite <- Z; apply filter_In; split; [exact I | apply Z.eqb_refl]). destruct X. }
    destruct (complete_nonempty _ (complete_filter _ _ C) NE) as (_ & NT). destruct (max_greatest _ NT) as (a & MA & GA). destruct (min_least _ NT) as (b & MB & GB).
    exists (a - b :: ds). split; [cbn [map]; rewrite E; unfold spread; rewrite MA, MB; reflexivity|]. constructor; [|exact F]. exists a, b. auto. }
  apply G. intros k. rewrite Proofs_Diagnostic.uniq_in. tauto.
Qed.
Lemma single_iff l : (1 <? length (uniq (map h_counter l)))%nat = false <-> single l.
Proof.
  rewrite Nat.ltb_ge. pose proof (Proofs_Diagnostic.uniq_nodup (map h_counter l)) as ND. pose proof (Proofs_Diagnostic.uniq_in (map h_counter l)) as I.
  destruct (uniq (map h_counter l)) as [|k [|k' r]].
  - split; [|cbn; lia]. intros _ r r' A B. apply (in_map h_counter) in A. apply I in A. destruct A.
  - split; [|cbn; lia]. intros _ r r' A B. apply (in_map h_counter) in A, B. apply I in A, B. destruct A as [<-|[]], B as [<-|[]]. reflexivity.
  - split; [cbn; lia|]. intros S. exfalso. assert (A : In k (k :: k' :: r)) by (left; reflexivity). assert (B : In k' (k :: k' :: r)) by (right; left; reflexivity).
    apply I in A, B. apply in_map_iff in A as (a & EA & A). apply in_map_iff in B as (b & EB & B). specialize (S a b A B). inversion ND as [|? ? NI _]; subst. apply NI. left. congruence.
Qed.
Lemma measure_spec n cycle s : ~ n == 0 -> complete cycle -> In s (steps_in cycle) -> exists x y d,
  let m := measure (Some n) cycle s in let l := rows_of cycle s in
  m_median m = Some x /\ m_mean m = Some y /\ m_duration m = Some d /\ median_rate n l x /\ mean_rate n l y /\ lasts l d /\
  (is (fun r => Qeq_bool r 0) (m_remaining m) && negb (m_recurring m) = true <-> final cycle l) /\
  (forall x', median_rate n l x' -> x' = x) /\ (forall y', mean_rate n l y' -> y' = y) /\ (forall d', lasts l d' -> d' = d).
Proof.
  intros NZ C I. unfold steps_in in I. rewrite Proofs_Diagnostic.uniq_in in I.
  assert (NE : rows_of cycle s <> []).
  { apply in_map_iff in I as (r & <- & I). intros Z. assert (X : In r []) by (rewrite <- Z; apply filter_In; split; [exact I | apply Z.eqb_refl]). destruct X. }
  pose proof (complete_filter cycle (fun r => Z.eqb (h_step r) s) C) as CL. fold (rows_of cycle s) in CL. destruct (complete_nonempty _ CL NE) as (NC & NT).
  destruct (median_total _ NC) as (m & M). destruct (durations _ CL) as (ds & ED & FD).
  assert (ND : ds <> []).
  { intros ->. inversion FD as [Z|]. destruct (rows_of cycle s) as [|r l]; [congruence|]. assert (X : In (h_counter r) (uniq (map h_counter (r :: l)))) by (apply Proofs_Diagnostic.uniq_in; left; reflexivity).
    rewrite <- Z in X. destruct X. }
  destruct (median_total _ ND) as (md & MD). assert (QZ : Qeq_bool n 0 = false) by (destruct (Qeq_bool n 0) eqn:Q0; [apply Qeq_bool_iff in Q0; contradiction | reflexivity]).
  exists (around2 (m / n)), (around2 (qsum (currents (rows_of cycle s)) / inject_Z (Z.of_nat (length (currents (rows_of cycle s)))) / n)), (inject_Z (round_half_even md)).
  cbv zeta. unfold measure. cbn [m_median m_mean m_duration m_remaining m_recurring]. change (of_step cycle s) with (rows_of cycle s). rewrite ED, MD.
  split; [unfold median_of; fold (currents (rows_of cycle s)); rewrite M; unfold c_rate; rewrite QZ; reflexivity|].
  split; [unfold mean; fold (currents (rows_of cycle s)); destruct (currents (rows_of cycle s)) as [|q qs]; [congruence|]; unfold c_rate; rewrite QZ; reflexivity|].
  split; [reflexivity|]. split; [exists m; auto|]. split; [reflexivity|]. split; [exists ds, md; auto|]. split.
  - rewrite andb_true_iff, negb_true_iff, single_iff. unfold final. apply and_iff_compat_r.
    assert (NTC : times cycle <> []).
    { apply complete_nonempty; [exact C|]. intros ->. apply NE. reflexivity. }
    destruct (max_greatest _ NTC) as (a & -> & (A1 & A2)). destruct (max_greatest _ NT) as (b & -> & (B1 & B2)). cbn [nsub is]. rewrite Qeq_bool_iff. unfold to_the_end. split.
    + intros E t (T1 & T2) t' T'. specialize (A2 _ T'). specialize (T2 _ B1). lra.
    + intros H. specialize (H b (conj B1 B2) a A1). assert (X : In b (times cycle)).
      { unfold times in *. rewrite in_dropna in *. apply in_map_iff in B1 as (r & E & R). apply filter_In in R as (R & _). rewrite <- E. apply in_map. exact R. }
      specialize (A2 _ X). lra.
  - split; [intros x' (m' & M' & ->); congruence|]. split; [intros y' ->; reflexivity|].
    intros d' (ds' & m' & F' & M' & ->). f_equal. apply rhe_ext.
    assert (E : Forall2 Qeq ds' ds). { clear - FD F'. revert ds F' FD. generalize (uniq (map h_counter (rows_of cycle s))). intros ks ds F' FD. revert ds FD. induction F' as [|k d' ks ds' T F' IH]; intros ds FD; inversion FD as [|? d ? ds2 T2 FD']; subst; constructor; [exact (takes_det _ _ _ _ T T2) | apply IH; exact FD']. }
    destruct (median_ext _ _ _ E M') as (m2 & E2 & Q2). rewrite MD in E2. injection E2 as <-. exact Q2.
Qed.

Ltac qb := repeat match goal with
  | H : _ && _ = true |- _ => apply andb_true_iff in H; destruct H
  | H : _ && _ = false |- _ => apply andb_false_iff in H
  | H : Qeq_bool _ _ = true |- _ => apply Qeq_bool_iff in H
  | H : Qlt_bool _ _ = true |- _ => apply Qlt_bool_iff in H
  | H : Qle_bool _ _ = true |- _ => apply Qle_bool_iff in H
  | H : Qlt_bool _ _ = false |- _ => apply Qlt_bool_false in H
  end.
Lemma Qeq_bool_false a b : Qeq_bool a b = false -> ~ a == b.
Proof. intros H E. apply Qeq_bool_iff in E. congruence. Qed.
Lemma Qle_bool_false a b : Qle_bool a b = false -> b < a.
Proof. intros H. apply Qnot_le_lt. intros E. apply Qle_bool_iff in E. congruence. Qed.
Lemma pulse_neg x d : x < 0 -> (pulse x d <-> x <= - (1 # 2) /\ d < 120).
Proof. intros N. unfold pulse. rewrite Qabs_neg by lra. split; intros (A & B); split; lra. Qed.
Lemma pulse_pos x d : 0 < x -> (pulse x d <-> (1 # 2) <= x /\ d < 120).
Proof. intros N. unfold pulse. rewrite Qabs_pos by lra. split; intros (A & B); split; lra. Qed.
Lemma Qabs_ext a b : a == b -> Qabs a == Qabs b.
Proof. intros E. rewrite E. reflexivity. Qed.
Lemma label_kind cycle l m x y d k : m_median m = Some x -> m_mean m = Some y -> m_duration m = Some d ->
  (is (fun r => Qeq_bool r 0) (m_remaining m) && negb (m_recurring m) = true <-> final cycle l) ->
  (hppc_label m = Ok (Some k) <-> hppc_kind cycle l x y d k).
Proof.
  intros EX EY ED F. unfold hppc_label. rewrite EX, EY, ED. cbn [is nequal].
  set (fin := is (fun r => Qeq_bool r 0) (m_remaining m) && negb (m_recurring m)) in *.
  replace (negb (Qeq_bool y x) && Qlt_bool x 0 && is (fun r => Qeq_bool r 0) (m_remaining m) && negb (m_recurring m)) with (negb (Qeq_bool y x) && Qlt_bool x 0 && fin)
    by (unfold fin; rewrite !andb_assoc; reflexivity).
  replace (Qeq_bool y x && Qlt_bool x 0 && is (fun r => Qeq_bool r 0) (m_remaining m) && negb (m_recurring m)) with (Qeq_bool y x && Qlt_bool x 0 && fin)
    by (unfold fin; rewrite !andb_assoc; reflexivity).
  clearbody fin. unfold hppc_kind.
  destruct (Qlt_le_dec x 0) as [N|N]; [|destruct (Qlt_le_dec 0 x) as [P|P]].
  - (* discharging *)
    assert (B0 : Qeq_bool x 0 = false) by (destruct (Qeq_bool x 0) eqn:E; [qb; lra | reflexivity]).
    assert (B1 : Qlt_bool x 0 = true) by (apply Qlt_bool_iff; exact N).
    assert (B2 : Qle_bool (1 # 2) x = false) by (destruct (Qle_bool (1 # 2) x) eqn:E; [qb; lra | reflexivity]).
    assert (B3 : Qlt_bool 0 x = false) by (apply Qlt_bool_false; lra).
    rewrite B0, B1, B2, B3. rewrite (pulse_neg x d N). cbn [andb]. rewrite !andb_true_r.
    destruct (Qle_bool x (- (1 # 2)) && Qlt_bool d 120) eqn:PB.
    + qb. split.
      * intros [= <-]. right. right. left. split; [reflexivity|]. split; [exact N|]. split; assumption.
      * intros [(-> & K & _)|[(-> & K & _)|[(-> & _)|[(-> & K & _)|[(-> & _ & K & _)|[(-> & _ & K & _)|(-> & K & _)]]]]]]; try lra; first [reflexivity | exfalso; apply K; split; assumption].
    + assert (NP : ~ (x <= - (1 # 2) /\ d < 120)). { intros (A & B). apply andb_false_iff in PB as [PB|PB]; [apply Qle_bool_false in PB | apply Qlt_bool_false in PB]; lra. }
      assert (X : forall T (u v : T), (if negb (Qeq_bool y x) && fin then u else if Qeq_bool y x && fin then u else v) = if fin then u else v)
        by (intros; destruct (Qeq_bool y x), fin; reflexivity).
      rewrite X. destruct fin.
      * assert (FF : final cycle l) by (apply F; reflexivity). split.
        -- intros [= <-]. right. right. right. right. left. auto.
        -- intros [(-> & H & _)|[(-> & H & _)|[(-> & _ & H)|[(-> & H & _)|[(-> & _ & H & _)|[(-> & _ & _ & H & _)|(-> & H & _)]]]]]]; try lra; try contradiction. reflexivity.
      * assert (FF : ~ final cycle l) by (intros H; apply F in H; discriminate).
        destruct (Qeq_bool y x && Qlt_bool (5 # 100) (Qabs (y * d / 3600))) eqn:G.
        -- qb. assert (GA : 5 # 100 < Qabs (x * d / 3600)). { rewrite <- (Qabs_ext (y * d / 3600)); [assumption|]. rewrite H. reflexivity. } split.
           ++ intros [= <-]. right. right. right. right. right. left. split; [reflexivity|]. split; [exact N|]. split; [exact NP|]. split; [exact FF|]. split; [symmetry; assumption | exact GA].
           ++ intros [(-> & K & _)|[(-> & K & _)|[(-> & _ & K)|[(-> & K & _)|[(-> & _ & _ & K)|[(-> & _ & _ & K & _)|(-> & K & _)]]]]]]; try lra; try contradiction. reflexivity.
        -- split; [discriminate|].
           intros [(-> & K & _)|[(-> & K & _)|[(-> & _ & K)|[(-> & K & _)|[(-> & _ & _ & K)|[(-> & _ & _ & K & E & A)|(-> & K & _)]]]]]]; try lra; try contradiction.
           exfalso. apply andb_false_iff in G as [G|G]; [apply Qeq_bool_false in G; apply G; symmetry; exact E|].
           apply Qlt_bool_false in G. rewrite (Qabs_ext (y * d / 3600) (x * d / 3600)) in G by (rewrite E; reflexivity). apply (Qlt_not_le _ _ A G).
  - (* charging *)
    assert (B0 : Qeq_bool x 0 = false) by (destruct (Qeq_bool x 0) eqn:E; [qb; lra | reflexivity]).
    assert (B1 : Qlt_bool x 0 = false) by (apply Qlt_bool_false; exact N).
    assert (B2 : Qle_bool x (- (1 # 2)) = false) by (destruct (Qle_bool x (- (1 # 2))) eqn:E; [qb; lra | reflexivity]).
    assert (B3 : Qlt_bool 0 x = true) by (apply Qlt_bool_iff; lra).
    rewrite B0, B1, B2, B3. rewrite (pulse_pos x d P). cbn [andb]. rewrite !andb_false_r. cbn [andb].
    destruct (Qle_bool (1 # 2) x && Qlt_bool d 120) eqn:PB.
    + qb. split.
      * intros [= <-]. right. right. right. left. split; [reflexivity|]. split; [exact P|]. split; assumption.
      * intros [(-> & K & _)|[(-> & K & _)|[(-> & K & _)|[(-> & _)|[(-> & K & _)|[(-> & K & _)|(-> & _ & K)]]]]]]; try lra; reflexivity.
    + assert (NP : ~ (1 # 2 <= x /\ d < 120)). { intros (A & B). apply andb_false_iff in PB as [PB|PB]; [apply Qle_bool_false in PB | apply Qlt_bool_false in PB]; lra. }
      destruct (Qlt_bool 120 d) eqn:D.
      * qb. split; [intros [= <-]; repeat right; auto|].
        intros [(-> & K & _)|[(-> & K & _)|[(-> & K & _)|[(-> & _ & K)|[(-> & K & _)|[(-> & K & _)|(-> & _ & K)]]]]]]; try lra; try contradiction; reflexivity.
      * qb. split; [discriminate|].
        intros [(-> & K & _)|[(-> & K & _)|[(-> & K & _)|[(-> & _ & K)|[(-> & K & _)|[(-> & K & _)|(-> & _ & K)]]]]]]; try lra; contradiction.
  - (* resting *)
    assert (Z : x == 0) by lra. assert (B0 : Qeq_bool x 0 = true) by (apply Qeq_bool_iff; exact Z). rewrite B0.
    destruct (Qlt_bool 600 d) eqn:D.
    + qb. split; [intros [= <-]; left; auto|].
      intros [(-> & _)|[(-> & _ & K)|[(-> & K & _)|[(-> & K & _)|[(-> & K & _)|[(-> & K & _)|(-> & K & _)]]]]]]; try lra; reflexivity.
    + qb. assert (D' : Qle_bool d 600 = true) by (apply Qle_bool_iff; exact D). rewrite D'. cbn [andb]. destruct (Qlt_bool 0 d) eqn:D0.
      * qb. split; [intros [= <-]; right; left; auto|].
        intros [(-> & _ & K)|[(-> & _ & K)|[(-> & K & _)|[(-> & K & _)|[(-> & K & _)|[(-> & K & _)|(-> & K & _)]]]]]]; try lra; reflexivity.
      * qb. split; [discriminate|].
        intros [(-> & _ & K)|[(-> & _ & K)|[(-> & K & _)|[(-> & K & _)|[(-> & K & _)|[(-> & K & _)|(-> & K & _)]]]]]]; lra.
Qed.
Lemma hppc_label_iff n cycle s k : ~ n == 0 -> complete cycle -> In s (steps_in cycle) ->
  (hppc_label (measure (Some n) cycle s) = Ok (Some k) <-> hppc_annotation n cycle s k).
Proof.
  intros NZ C I. destruct (measure_spec n cycle s NZ C I) as (x & y & d & EX & EY & ED & RX & RY & RD & F & UX & UY & UD).
  rewrite (label_kind cycle (rows_of cycle s) _ x y d k EX EY ED F). unfold hppc_annotation. split.
  - intros K. exists x, y, d. auto.
  - intros (x' & y' & d' & A & B & D & K). rewrite (UX _ A), (UY _ B), (UD _ D) in K. exact K.
Qed.
Lemma rpt_label_iff n type cycle s k : ~ n == 0 -> complete cycle -> In s (steps_in cycle) ->
  (rpt_label type (measure (Some n) cycle s) = Ok (Some k) <-> rpt_annotation n type cycle s k).
Proof.
  intros NZ C I. destruct (measure_spec n cycle s NZ C I) as (x & y & d & EX & _ & _ & RX & _ & _ & _ & UX & _ & _).
  unfold rpt_label, rpt_annotation. rewrite EX. cbn [is]. split.
  - destruct (Qlt_bool 0 x) eqn:P; [intros [= <-]; qb; exists x; auto|]. destruct (Qlt_bool x 0) eqn:N; [|discriminate]. intros [= <-]. qb. exists x. auto.
  - intros (x' & A & K). rewrite (UX _ A) in K. destruct K as [(K & ->)|(K & ->)].
    + apply Qlt_bool_iff in K. rewrite K. reflexivity.
    + assert (P : Qlt_bool 0 x = false) by (apply Qlt_bool_false; lra). apply Qlt_bool_iff in K. rewrite P, K. reflexivity.
Qed.
