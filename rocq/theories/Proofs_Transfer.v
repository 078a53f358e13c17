(** Proofs about moving and re-processing files and quoting. *)
From Verif Require Import Py Num Model_Arbin Model_RawFile Model_Transfer Spec_Transfer.
From Verif Require Import Proofs_Diagnostic Proofs_Strings Proofs_Text Proofs_Arbin.

(** ** Characters *)
Lemma free_in c s : char_free c s <-> ~ In c (list_ascii_of_string s).
Proof.
  induction s as [|d s IH]; [split; [intros _ [] | reflexivity]|]. rewrite char_free_cons, IH. cbn [list_ascii_of_string In]. intuition.
Qed.
Lemma chars_app a b : list_ascii_of_string (a ++ b) = (list_ascii_of_string a ++ list_ascii_of_string b)%list.
Proof. induction a as [|c a IH]; [reflexivity|]. cbn. f_equal. exact IH. Qed.
Lemma last_of a c d : last (list_ascii_of_string (a ++ String c "")) d = c.
Proof. rewrite chars_app. cbn. apply last_last. Qed.
Lemma ending d : folder d -> exists a c, d = (a ++ String c "")%string /\ c <> "/"%char.
Proof.
  intros (c & r & z & E & _ & L & N). destruct (last_char d) as (a & e & D); [rewrite E; discriminate|]. exists a, e. split; [exact D|].
  rewrite D, last_of in L. congruence.
Qed.
Lemma rstrip_slash_stop a c : c <> "/"%char -> rstrip_slash (a ++ String c "") = (a ++ String c "")%string.
Proof.
  intro N. induction a as [|d a IH]; cbn [append rstrip_slash].
  - apply Ascii.eqb_neq in N. rewrite N. reflexivity.
  - rewrite IH. destruct a; reflexivity.
Qed.

(** ** Replacing *)
Lemma renamed_ok old new s s' : old <> ""%string -> renamed old new s s' -> replace_text old new s = s'.
Proof.
  intro N. unfold replace_text. induction 1 as [s C | a b b' L R IH]; [rewrite str_split_none by exact C; reflexivity|].
  rewrite str_split_first; [|exact N | exact L]. rewrite <- IH.
  pose proof (str_split_nonempty old b). destruct (str_split old b); [congruence|]. reflexivity.
Qed.
Lemma renamed_total old new : old <> ""%string -> forall s, exists s', renamed old new s s'.
Proof.
  intros N s. remember (String.length s) as n eqn:L. revert s L. induction n as [n IH] using lt_wf_ind. intros s L.
  destruct (contains old s) eqn:C; [|exists s; constructor; exact C].
  destruct (first_exists old s C) as (a & b & E & F). destruct (IH (String.length b)) with (s := b) as (b' & R); [|reflexivity|].
  - rewrite L, E, !app_length_s. destruct old; [congruence|]. cbn [String.length]. lia.
  - exists (a ++ new ++ b')%string. rewrite E. constructor; assumption.
Qed.
Lemma renamed_slash old new s s' : slash_free new -> slash_free s -> renamed old new s s' -> slash_free s'.
Proof.
  intros O S. induction 1 as [s C | a b b' L R IH]; [exact S|]. unfold slash_free in *. rewrite !chars_app, !in_app_iff in *. tauto.
Qed.
Lemma renamed_front old new x : old <> ""%string -> contains old x = false -> renamed old new (old ++ x) (new ++ x).
Proof.
  intros N C. change (renamed old new ("" ++ old ++ x) ("" ++ new ++ x)). constructor; [intros p q _; apply Nat.le_0_l | constructor; exact C].
Qed.

(** ** Keys *)
Lemma split_folder dir name : slash_free name -> str_split "/" (dir ++ "/" ++ name) = (str_split "/" dir ++ [name])%list.
Proof.
  intro S. rewrite <- (join_split "/" dir) at 1 by discriminate. rewrite <- join_snoc by apply str_split_nonempty.
  apply split_join; [destruct (str_split "/" dir); discriminate|]. apply Forall_app. split.
  - apply Forall_forall. intros p I. exact (split_pieces "/" dir p ltac:(discriminate) I).
  - constructor; [apply free_in; exact S | constructor].
Qed.
Lemma os_split_ok key dir name : in_folder key dir name -> os_split key = (dir, name).
Proof.
  intros (-> & F & S). unfold os_split. rewrite split_folder by exact S. rewrite removelast_last, last_last, join_split by discriminate.
  destruct (ending dir F) as (a & c & -> & N). rewrite rstrip_slash_stop by exact N. reflexivity.
Qed.
Lemma os_join_ok dir name : folder dir -> slash_free name -> os_join dir name = (dir ++ "/" ++ name)%string.
Proof.
  intros F S. unfold os_join. destruct (prefix "/" name) eqn:P.
  { apply prefix_iff in P. destruct P as (r & ->). exfalso. apply S. left. reflexivity. }
  destruct (ending dir F) as (a & c & E & N). rewrite E at 2. rewrite last_of. apply Ascii.eqb_neq in N. rewrite N, orb_false_r.
  destruct (String.eqb_spec dir ""); [destruct F as (? & ? & ? & D & _); congruence | reflexivity].
Qed.
Lemma moved_key_ok inp out key dir name name' : inp <> ""%string -> slash_free out -> in_folder key dir name -> renamed inp out name name' ->
  moved_key inp out key = (dir ++ "/" ++ name')%string.
Proof.
  intros N O K R. unfold moved_key. rewrite (os_split_ok key dir name K). destruct K as (_ & F & S).
  rewrite (renamed_ok inp out name name' N R). apply os_join_ok; [exact F|]. exact (renamed_slash inp out name name' O S R).
Qed.
Lemma slash_app dir dir' a b : slash_free a -> slash_free b -> (dir ++ "/" ++ a = dir' ++ "/" ++ b)%string -> dir = dir' /\ a = b.
Proof.
  intros A B E. assert (K : (str_split "/" dir ++ [a] = str_split "/" dir' ++ [b])%list) by (rewrite <- !split_folder by assumption; rewrite E; reflexivity).
  apply app_inj_tail in K as [K1 K2]. split; [|exact K2]. rewrite <- (join_split "/" dir), <- (join_split "/" dir') by discriminate. rewrite K1. reflexivity.
Qed.
Lemma app_cancel a : forall x y, (a ++ x = a ++ y)%string -> x = y.
Proof. induction a as [|c a IH]; intros x y E; [exact E|]. injection E as E. exact (IH _ _ E). Qed.
Lemma moved_apart inp out dir dir' x y : inp <> ""%string -> slash_free out ->
  in_folder (dir ++ "/" ++ inp ++ x) dir (inp ++ x) -> in_folder (dir' ++ "/" ++ inp ++ y) dir' (inp ++ y) ->
  contains inp x = false -> contains inp y = false ->
  moved_key inp out (dir ++ "/" ++ inp ++ x) = moved_key inp out (dir' ++ "/" ++ inp ++ y) -> dir = dir' /\ x = y.
Proof.
  intros N O K K' C C' E. rewrite (moved_key_ok _ _ _ _ _ _ N O K (renamed_front inp out x N C)) in E.
  rewrite (moved_key_ok _ _ _ _ _ _ N O K' (renamed_front inp out y N C')) in E.
  destruct K as (_ & _ & S), K' as (_ & _ & S'). unfold slash_free in S, S'. rewrite chars_app, in_app_iff in S, S'.
  apply slash_app in E; try (unfold slash_free in *; rewrite chars_app, in_app_iff; tauto).
  destruct E as [-> E]. split; [reflexivity | exact (app_cancel _ _ _ E)].
Qed.

(** ** Texts *)
Lemma universal_line l : forall s, one_line l -> universal (l ++ s) = (l ++ universal s)%string.
Proof.
  induction l as [|c l IH]; intros s [A B]; [reflexivity|]. cbn [append universal].
  destruct (Nat.eqb_spec (nat_of_ascii c) 13) as [E|_].
  { exfalso. apply A. left. unfold cr. rewrite <- E. symmetry. apply ascii_nat_embedding. }
  rewrite IH; [reflexivity|]. split; intro I; [apply A | apply B]; right; exact I.
Qed.
Lemma universal_end e s : line_end e -> universal (e ++ s) = String nl (universal s).
Proof. intros [-> | ->]; reflexivity. Qed.
Lemma universal_lines e ls : line_end e -> Forall one_line ls -> universal (join e ls) = join (String nl "") ls.
Proof.
  intros E F. induction F as [|l ls L F IH]; [reflexivity|]. destruct ls as [|m ls].
  - cbn [join]. rewrite <- (app_nil_r_s l) at 1. rewrite (universal_line l "" L). apply app_nil_r_s.
  - rewrite !join_cons, (universal_line l _ L), (universal_end e _ E), IH. reflexivity.
Qed.
Lemma first_line_split l s : ~ In nl (list_ascii_of_string l) -> first_line (l ++ String nl s) = ((l ++ String nl "")%string, s).
Proof.
  induction l as [|c l IH]; intro N; cbn [append first_line]; [reflexivity|].
  destruct (Ascii.eqb_spec c nl) as [->|_]; [exfalso; apply N; left; reflexivity|]. rewrite IH; [reflexivity|]. intro I. apply N. right. exact I.
Qed.
Lemma first_line_all l : ~ In nl (list_ascii_of_string l) -> first_line l = (l, ""%string).
Proof.
  induction l as [|c l IH]; intro N; cbn [first_line]; [reflexivity|].
  destruct (Ascii.eqb_spec c nl) as [->|_]; [exfalso; apply N; left; reflexivity|]. rewrite IH; [reflexivity|]. intro I. apply N. right. exact I.
Qed.
Lemma leading_more a old b t : leading a old b -> leading a old (b ++ t).
Proof.
  intros L p q E. destruct (Nat.le_gt_cases (String.length a) (String.length p)) as [|G]; [assumption|].
  destruct (app_split_le (p ++ old) q (a ++ old ++ b) t) as (m & M & _).
  - rewrite !app_assoc_s. symmetry. exact E.
  - rewrite !app_length_s. lia.
  - apply (L p m). rewrite M, app_assoc_s. reflexivity.
Qed.
Lemma renamed_more old new s s' t : old <> ""%string -> ~ (exists c, In c (list_ascii_of_string old) /\ In c (list_ascii_of_string t)) ->
  renamed old new s s' -> renamed old new (s ++ t) (s' ++ t).
Proof.
  intros N D. induction 1 as [s C | a b b' L R IH].
  - constructor. destruct (contains old (s ++ t)) eqn:E; [|reflexivity]. apply contains_iff in E. destruct E as (p & q & E). exfalso.
    destruct (Nat.le_gt_cases (String.length p + String.length old) (String.length s)) as [Q|Q].
    + destruct (app_split_le (p ++ old) q s t) as (m & M & _); [rewrite app_assoc_s; symmetry; exact E | rewrite app_length_s; lia|].
      enough (contains old s = true) by congruence. apply contains_iff. exists p, m. rewrite M, app_assoc_s. reflexivity.
    + (* the last character of [old] would be in [t] *)
      destruct (last_char old N) as (o & c & O). apply D. exists c. split; [rewrite O, chars_app; apply in_or_app; right; left; reflexivity|].
      destruct (app_split_le s t (p ++ o) (String c q)) as (m & _ & M).
      * rewrite E, O, !app_assoc_s. reflexivity.
      * rewrite app_length_s. rewrite O, app_length_s in Q. cbn [String.length] in Q. lia.
      * rewrite M, chars_app. apply in_or_app. right. left. reflexivity.
  - rewrite !app_assoc_s. constructor; [apply leading_more; exact L | exact IH].
Qed.
Lemma moved_text_ok inp out e l ls l' : inp <> ""%string -> line_end e -> one_line inp -> one_line l -> Forall one_line ls -> renamed inp out l l' ->
  moved_text inp out (join e (l :: ls)) = join (String lf "") (l' :: ls).
Proof.
  intros N E I L F R. unfold moved_text. rewrite (universal_lines e _ E (Forall_cons _ L F)). destruct ls as [|m ls].
  - cbn [join]. rewrite first_line_all by exact (proj2 L). rewrite (renamed_ok _ _ _ _ N R). apply app_nil_r_s.
  - rewrite join_cons. change (l ++ String nl "" ++ join (String nl "") (m :: ls))%string with (l ++ String nl (join (String nl "") (m :: ls)))%string.
    rewrite first_line_split by exact (proj2 L).
    rewrite (renamed_ok inp out (l ++ String nl "") (l' ++ String nl "") N).
    + rewrite join_cons, app_assoc_s. reflexivity.
    + apply renamed_more; [exact N | | exact R]. intros (c & C & D). cbn in D. destruct D as [<- | []]. exact (proj2 I C).
Qed.

(** ** Listing *)
Lemma excluded_all (xs : list string) : forall names n,
  In n (fold_left (fun names x => filter (fun n => negb (contains x n)) names) xs names) <-> In n names /\ Forall (fun x => contains x n = false) xs.
Proof.
  induction xs as [|x r IH]; intros names n; cbn [fold_left]; [intuition|]. rewrite IH, filter_In, negb_true_iff, Forall_cons_iff. tauto.
Qed.
Lemma pages_ok pages : mapM (fun page : option (list string) => match page with Some l => Ok l | None => Err KeyError end) (map Some pages) = Ok pages.
Proof. induction pages as [|p r IH]; [reflexivity|]. cbn [map mapM bind]. rewrite IH. reflexivity. Qed.
Lemma listed inp prefix_ paginate excluded pages : folder prefix_ -> slash_free inp -> paginate (prefix_ ++ "/")%string = map Some pages ->
  exists names, list_files inp prefix_ paginate excluded = Ok names /\
    forall n, In n names <-> In n (concat pages) /\ contains (prefix_ ++ "/" ++ inp) n = true /\ Forall (fun x => contains x n = false) excluded.
Proof.
  intros F S P. unfold list_files, all_objects. rewrite (os_join_ok _ _ F S). destruct (ending _ F) as (a & c & E & N).
  replace (last (list_ascii_of_string prefix_) " "%char) with c by (rewrite E, last_of; reflexivity).
  apply Ascii.eqb_neq in N. rewrite N, P, pages_ok. cbn [bind]. eexists. split; [reflexivity|]. intro n. rewrite excluded_all, filter_In. tauto.
Qed.
Lemma pages_err (l : list (option (list string))) : In None l ->
  mapM (fun page : option (list string) => match page with Some l => Ok l | None => Err KeyError end) l = Err KeyError.
Proof.
  induction l as [|p r IH]; [intros []|]. intro I. cbn [mapM]. destruct p as [p|]; [|reflexivity]. destruct I as [I | I]; [discriminate|].
  rewrite (IH I). reflexivity.
Qed.
Lemma no_page inp prefix_ paginate excluded : folder prefix_ -> In None (paginate (prefix_ ++ "/")%string) ->
  list_files inp prefix_ paginate excluded = Err KeyError.
Proof.
  intros F P. unfold list_files, all_objects. destruct (ending _ F) as (a & c & E & N).
  replace (last (list_ascii_of_string prefix_) " "%char) with c by (rewrite E, last_of; reflexivity).
  apply Ascii.eqb_neq in N. rewrite N, (pages_err _ P). reflexivity.
Qed.

(** ** Uploads *)
Lemma mapM_all {A B} (f : A -> result B) (g : A -> B) l : Forall (fun x => f x = Ok (g x)) l -> mapM f l = Ok (map g l).
Proof. induction 1 as [|x l E F IH]; [reflexivity|]. cbn [mapM map]. rewrite E, IH. reflexivity. Qed.
Section Uploads.
  Variables (inp out bucket : string) (dry : bool) (object : string -> string) (held : string -> nat) (accepted : string -> string -> bool).
  Definition target : string := if dry then "beep-sync-test-stage"%string else bucket.
  Definition sent (key : string) : string := let t := moved_text inp out (object key) in substring 0 (String.length t - held t) t.
  Lemma uploads names : Forall (fun k => exists dir name, in_folder k dir name /\ contains inp name = true) names ->
    transfer inp out bucket dry object held accepted names =
    Ok (map (fun k => (target, moved_key inp out k, sent k)) (filter (fun k => accepted target (moved_key inp out k)) names)).
  Proof.
    intro F. unfold transfer.
    erewrite (mapM_all _ (fun k => (target, moved_key inp out k, sent k))).
    2:{ revert F. apply Forall_impl. intros k (dir & name & K & C). rewrite (os_split_ok _ _ _ K). cbn [snd]. rewrite C. reflexivity. }
    cbn [bind]. f_equal. clear. induction names as [|k r IH]; [reflexivity|]. cbn [map filter fst snd].
    destruct (accepted target (moved_key inp out k)); cbn [map]; rewrite IH; reflexivity.
  Qed.
  Lemma sent_prefix key : exists rest, moved_text inp out (object key) = (sent key ++ rest)%string.
  Proof.
    unfold sent. set (t := moved_text _ _ _). set (k := (String.length t - held t)%nat).
    assert (G : forall n s, exists r, s = (substring 0 n s ++ r)%string).
    { clear. induction n as [|n IH]; intros [|c s]; cbn [substring]; try (eexists; reflexivity). destruct (IH s) as (r & E). exists r. cbn. f_equal. exact E. }
    apply G.
  Qed.
  Lemma whole s : substring 0 (String.length s) s = s.
  Proof. induction s as [|c s IH]; [reflexivity|]. cbn [String.length substring]. rewrite IH. reflexivity. Qed.
  Lemma sent_whole key : held (moved_text inp out (object key)) = 0%nat -> sent key = moved_text inp out (object key).
  Proof. intro H. unfold sent. rewrite H, Nat.sub_0_r. apply whole. Qed.
  Lemma sent_nothing key : (forall t, (Z.of_nat (String.length t) < 8192)%Z -> held t = String.length t) ->
    (Z.of_nat (String.length (moved_text inp out (object key))) < 8192)%Z -> sent key = ""%string.
  Proof. intros H L. unfold sent. rewrite (H _ L), Nat.sub_diag. destruct (moved_text _ _ _); reflexivity. Qed.
End Uploads.

(** ** Scanning *)
Lemma firstn_one {A} n (l : list A) x : (2 <= n)%nat -> (firstn n l = [x] <-> l = [x]).
Proof.
  intro L. destruct n as [|[|n]]; [lia | lia |]. destruct l as [|a [|b l]]; cbn [firstn]; split; intro E; try discriminate; exact E || (rewrite firstn_nil in *; exact E).
Qed.
Lemma stale_iff output now s3_output o p : p = (s3_output ++ "/" ++ structure_name (o_key o))%string ->
  (stale output now s3_output o = true <-> ~ just_made output now p).
Proof.
  intros ->. unfold stale, just_made, list_objects. set (p := (s3_output ++ "/" ++ structure_name (o_key o))%string).
  change (filter (fun o0 => prefix p (o_key o0)) output) with (listing output p).
  assert (K : forall x, firstn (Z.to_nat 1000) (listing output p) = [x] <-> listing output p = [x]) by (intro x; apply firstn_one; lia).
  destruct (firstn (Z.to_nat 1000) (listing output p)) as [|s [|s' r]] eqn:E.
  - split; [intros _ (s & L & _) | reflexivity]. apply K in L. discriminate.
  - pose proof (proj1 (K s) eq_refl) as L. rewrite Z.ltb_lt. split.
    + intros H (s' & L' & M). rewrite L in L'. injection L' as <-. lia.
    + intro N. destruct (Z.lt_ge_cases (o_modified s) (now - 6 * 3600)%Z); [assumption|]. exfalso. apply N. exists s. split; [exact L | lia].
  - split; [intros _ (t & L & _) | reflexivity]. apply K in L. discriminate.
Qed.
Lemma wanted_iff o : wanted o = true <-> chosen o.
Proof. unfold wanted, chosen. rewrite !andb_true_iff, !negb_true_iff, Z.ltb_lt. tauto. Qed.
Lemma filter_subsequence {A} (f : A -> bool) l : subsequence (filter f l) l.
Proof. induction l as [|x l IH]; [constructor|]. cbn [filter]. destruct (f x); constructor; exact IH. Qed.
Lemma subsequence_trans {A} (b c : list A) : subsequence b c -> forall a, subsequence a b -> subsequence a c.
Proof.
  induction 1 as [|x l m H IH|x l m H IH]; intros a S.
  - inversion S. constructor.
  - constructor. apply IH. exact S.
  - inversion S; subst; [constructor; apply IH; assumption | apply sub_keep; apply IH; assumption].
Qed.
Lemma mark_iff c : (nat_of_ascii c =? 34)%nat = Ascii.eqb c quote_mark.
Proof.
  destruct (Nat.eqb_spec (nat_of_ascii c) 34) as [E|N], (Ascii.eqb_spec c quote_mark) as [F|G]; try reflexivity.
  - exfalso. apply G. unfold quote_mark. rewrite <- E. symmetry. apply ascii_nat_embedding.
  - exfalso. apply N. rewrite F. reflexivity.
Qed.
Lemma lstrip_mark s : mark_free s -> forall t, lstrip_quote (s ++ String quote_mark t) = (s ++ lstrip_quote (String quote_mark t))%string \/ lstrip_quote (s ++ String quote_mark t) = (s ++ String quote_mark t)%string.
Proof.
  intros F t. destruct s as [|c s]; [left; reflexivity|]. right. cbn [append lstrip_quote]. rewrite mark_iff.
  destruct (Ascii.eqb_spec c quote_mark) as [->|]; [exfalso; apply F; left; reflexivity | reflexivity].
Qed.
Lemma rstrip_mark s : mark_free s -> rstrip_quote (s ++ String quote_mark "") = s /\ rstrip_quote s = s.
Proof.
  induction s as [|c s IH]; intro F; [split; reflexivity|]. cbn [append rstrip_quote].
  destruct IH as [E1 E2]; [intro I; apply F; right; exact I|]. rewrite E1, E2, mark_iff.
  assert (N : Ascii.eqb c quote_mark = false) by (apply Ascii.eqb_neq; intro E; apply F; left; exact E). rewrite N.
  destruct s; split; reflexivity.
Qed.
Lemma hash_ok h : mark_free h -> rstrip_quote (lstrip_quote (String quote_mark (h ++ String quote_mark ""))) = h.
Proof.
  intro F. change (lstrip_quote (String quote_mark (h ++ String quote_mark ""))) with (lstrip_quote (h ++ String quote_mark "")).
  destruct h as [|c h]; [reflexivity|]. cbn [append lstrip_quote]. rewrite mark_iff.
  destruct (Ascii.eqb_spec c quote_mark) as [->|]; [exfalso; apply F; left; reflexivity|].
  exact (proj1 (rstrip_mark (String c h) F)).
Qed.
Lemma scan_ok input output now s3_prefix s3_output : listing input s3_prefix <> [] -> (length (listing input s3_prefix) <= Z.to_nat 1000)%nat ->
  exists es os, scan input output now s3_prefix s3_output = Ok es /\ Forall2 event_of os es /\ subsequence (rev os) input /\
    forall o, In o os <-> In o (listing input s3_prefix) /\ chosen o /\ ~ just_made output now (s3_output ++ "/" ++ structure_name (o_key o)).
Proof.
  intros N L. unfold scan, list_objects. change (filter (fun o => prefix s3_prefix (o_key o)) input) with (listing input s3_prefix).
  rewrite firstn_all2 by exact L. destruct (listing input s3_prefix) as [|o0 r] eqn:E; [congruence|]. rewrite <- E.
  eexists. exists (rev (filter (stale output now s3_output) (filter wanted (listing input s3_prefix)))). split; [reflexivity|]. split; [|split].
  - induction (rev _) as [|o l IH]; [constructor|]. cbn [map]. constructor; [|exact IH]. split; [reflexivity|]. split; [reflexivity|]. split; [reflexivity|].
    intros h F H. cbn [ev_hash]. rewrite H. apply hash_ok. exact F.
  - rewrite rev_involutive. apply (subsequence_trans _ _ (filter_subsequence (fun o => prefix s3_prefix (o_key o)) input)).
    apply (subsequence_trans _ _ (filter_subsequence wanted _)). apply filter_subsequence.
  - intro o. rewrite <- in_rev, !filter_In, wanted_iff, (stale_iff output now s3_output o _ eq_refl). tauto.
Qed.
Lemma structure_name_ok key name : structured_name key name -> structure_name key = name.
Proof.
  intros (dir & stem & rest & -> & D & S & F & R & ->). unfold structure_name. f_equal.
  replace (last (str_split "/" (dir ++ stem ++ rest)) ""%string) with (stem ++ rest)%string.
  - destruct R as [-> | (r & ->)].
    + rewrite app_nil_r_s, str_split_none; [reflexivity | apply free_in; exact F].
    + rewrite str_split_char; [reflexivity | apply free_in; exact F].
  - destruct D as [-> | D].
    + cbn [append]. rewrite str_split_none; [reflexivity | apply free_in; exact S].
    + destruct dir as [|c0 dir0]; [discriminate D|]. destruct (last_char (String c0 dir0)) as (a & c & E); [discriminate|]. rewrite E in *. rewrite last_of in D. subst c.
      rewrite app_assoc_s. change (String "/" "" ++ stem ++ rest)%string with ("/" ++ (stem ++ rest))%string. rewrite split_folder by exact S. rewrite last_last. reflexivity.
Qed.
Lemma beyond input output now s3_prefix s3_output l1 o l2 es : listing input s3_prefix = (l1 ++ o :: l2)%list -> length l1 = Z.to_nat 1000 ->
  ~ In (o_key o) (map o_key l1) -> scan input output now s3_prefix s3_output = Ok es -> ~ In (o_key o) (map ev_filename es).
Proof.
  intros E L N. unfold scan, list_objects. change (filter (fun o => prefix s3_prefix (o_key o)) input) with (listing input s3_prefix).
  rewrite E, firstn_app, L, Nat.sub_diag, firstn_all2 by lia. cbn [firstn]. rewrite app_nil_r. intros S I. apply N.
  replace es with (map (fun o => {| ev_filename := o_key o; ev_bucket := "beep-input-data-stage"; ev_size := o_size o; ev_hash := rstrip_quote (lstrip_quote (o_etag o)) |})
    (rev (filter (stale output now s3_output) (filter wanted l1)))) in I by (destruct l1; [discriminate L | congruence]).
  rewrite map_map in I. cbn [ev_filename] in I. apply in_map_iff in I as (y & K & I). rewrite <- in_rev in I. apply filter_In in I as [I _]. apply filter_In in I as [I _].
  rewrite <- K. apply in_map. exact I.
Qed.

(** ** Quoting *)
Lemma sh_inside s : forall w, ~ In "'"%char (list_ascii_of_string s) -> sh_words true (Some w) (s ++ "'") = Some [(w ++ s)%string].
Proof.
  induction s as [|c s IH]; intros w N.
  - cbn. rewrite app_nil_r_s. reflexivity.
  - cbn [append sh_words]. destruct (Ascii.eqb_spec c "'") as [->|_]; [exfalso; apply N; left; reflexivity|].
    rewrite IH; [rewrite app_assoc_s; reflexivity | intro I; apply N; right; exact I].
Qed.
Lemma posix s : ~ In "'"%char (list_ascii_of_string s) -> sh_words false None (os_format false s) = Some [s].
Proof. intro N. exact (sh_inside s "" N). Qed.

Lemma replace_cons c new d r : replace_text (String c "") new (String d r) =
  if Ascii.eqb d c then (new ++ replace_text (String c "") new r)%string else String d (replace_text (String c "") new r).
Proof.
  unfold replace_text. destruct (Ascii.eqb_spec d c) as [->|N].
  - change (String c r) with ("" ++ String c r)%string at 1. rewrite str_split_char by reflexivity.
    pose proof (str_split_nonempty (String c "") r). destruct (str_split (String c "") r); [congruence|]. reflexivity.
  - destruct (contains (String c "") r) eqn:C.
    + apply first_exists in C. destruct C as (a & b & -> & F). assert (A : char_free c a) by (apply (first_at_no (String c "") a b); [discriminate | exact F]).
      change (String c "" ++ b)%string with (String c b). rewrite (str_split_char c a b A).
      change (String d (a ++ String c b)) with (String d a ++ String c b)%string. rewrite str_split_char by (apply char_free_cons; split; assumption).
      pose proof (str_split_nonempty (String c "") b). destruct (str_split (String c "") b); [congruence|]. reflexivity.
    + rewrite (str_split_none _ r C), str_split_none; [reflexivity|]. apply char_free_cons. split; assumption.
Qed.
Lemma many_snoc k : (many k ++ String backslash "")%string = many (S k).
Proof. induction k as [|k IH]; [reflexivity|]. cbn [many append]. rewrite IH. reflexivity. Qed.
Definition escaped (s : string) : string := replace_text (String quote_mark "") (String backslash (String quote_mark "")) s.
Lemma last_cons_chars c d r x : last (list_ascii_of_string (String c (String d r))) x = last (list_ascii_of_string (String d r)) x.
Proof. reflexivity. Qed.
Lemma win_inside s : forall w k, contains (String backslash (String quote_mark "")) s = false ->
  (s <> ""%string -> last (list_ascii_of_string s) " "%char <> backslash) ->
  (k = 0%nat \/ exists c r, s = String c r /\ c <> quote_mark) ->
  win_words true k (Some w) (escaped s ++ String quote_mark "") = [(w ++ many k ++ s)%string].
Proof.
  induction s as [|c s IH]; intros w k N L K.
  - destruct K as [-> | (c & r & E & _)]; [|discriminate]. cbn. rewrite !app_nil_r_s. reflexivity.
  - unfold escaped. rewrite replace_cons. fold (escaped s).
    assert (N' : contains (String backslash (String quote_mark "")) s = false) by (cbn [contains] in N; apply orb_false_iff in N; apply N).
    assert (L' : s <> ""%string -> last (list_ascii_of_string s) " "%char <> backslash).
    { intro S. destruct s as [|d s]; [congruence|]. rewrite <- (last_cons_chars c d s). apply L. discriminate. }
    destruct (Ascii.eqb_spec c quote_mark) as [->|Q].
    + destruct K as [-> | (d & r & [= <- <-] & D)]; [|congruence]. cbn [append].
      change (win_words true 0 (Some w) (String backslash (String quote_mark (escaped s ++ String quote_mark "")))) with
        (win_words true 0 (Some ((w ++ many 0) ++ String quote_mark "")%string) (escaped s ++ String quote_mark "")).
      rewrite (IH _ 0%nat N' L' (or_introl eq_refl)). cbn [many append]. rewrite app_nil_r_s, app_assoc_s. reflexivity.
    + cbn [append win_words]. destruct (Ascii.eqb_spec c backslash) as [->|B].
      * destruct s as [|d s]; [exfalso; apply L; [discriminate | reflexivity]|]. rewrite (IH w (S k) N' L').
        -- rewrite <- many_snoc, app_assoc_s. reflexivity.
        -- right. exists d, s. split; [reflexivity|]. intros ->. enough (contains (String backslash (String quote_mark "")) (String backslash (String quote_mark s)) = true) by congruence.
           apply contains_iff. exists ""%string, s. reflexivity.
      * apply Ascii.eqb_neq in Q. rewrite Q. rewrite andb_false_r. rewrite (IH _ 0%nat N' L' (or_introl eq_refl)). cbn [many append].
        rewrite !app_assoc_s. reflexivity.
Qed.
Lemma windows s : win_safe s -> win_words false 0 None (os_format true s) = [s].
Proof. intros [N L]. exact (win_inside s "" 0%nat N (fun _ => L) (or_introl eq_refl)). Qed.
