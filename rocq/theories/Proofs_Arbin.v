(** Lemmas for C38: nested settings written and read. *)
From Verif Require Import Py Model_Text Proofs_Structure Proofs_Strings Proofs_Datapath Proofs_Diagnostic Model_Arbin Spec_Arbin.

Lemma node_nested (P : node -> Prop) :
  (forall v, P (Leaf v)) -> (forall kvs, Forall (fun kv => P (snd kv)) kvs -> P (Dict kvs)) -> forall n, P n.
Proof.
  intros HL HD. fix IH 1. intros [v|kvs]; [apply HL|]. apply HD.
  induction kvs as [|[k b] r IHr]; constructor; [apply IH|exact IHr].
Qed.

(** ** Paths instead of dotted keys *)
Fixpoint paths (n : node) : list (list string) :=
  match n with
  | Leaf _ => []
  | Dict kvs =>
      (fix go (kvs : list (string * node)) : list (list string) :=
         match kvs with
         | [] => []
         | (k, b) :: r => match b with Leaf _ => [] | Dict _ => [k] :: map (cons k) (paths b) end ++ go r
         end) kvs
  end.
Definition entry_paths (kb : string * node) : list (list string) :=
  match snd kb with Leaf _ => [] | Dict _ => [fst kb] :: map (cons (fst kb)) (paths (snd kb)) end.
Lemma paths_dict kvs : paths (Dict kvs) = concat (map entry_paths kvs).
Proof. cbn. induction kvs as [|[k b] r IH]; [reflexivity|]. cbn [map concat]. rewrite <- IH. reflexivity. Qed.
Lemma paths_cons n p : In p (paths n) -> p <> [].
Proof.
  destruct n as [v|kvs]; [intros []|]. rewrite paths_dict. intro H. apply in_concat in H. destruct H as (l & L & I). apply in_map_iff in L.
  destruct L as ([k b] & <- & _). unfold entry_paths in I. cbn in I. destruct b; [destruct I|]. destruct I as [<-|I]; [discriminate|].
  apply in_map_iff in I. destruct I as (q & <- & _). discriminate.
Qed.
Definition dotted (p : list string) : string := join "." p.
Lemma dotted_cons k p : p <> [] -> dotted (k :: p) = (k ++ "." ++ dotted p)%string.
Proof. destruct p; [congruence|reflexivity]. Qed.
Lemma headings_paths n : get_headings n = map dotted (paths n).
Proof.
  induction n as [v|kvs IH] using node_nested; [reflexivity|]. rewrite paths_dict. cbn [get_headings].
  induction kvs as [|[k b] r IHr]; [reflexivity|]. inversion IH as [|x l B R]; subst. cbn [map concat snd]. rewrite map_app, <- (IHr R). f_equal.
  unfold entry_paths. cbn [snd fst] in *. destruct b as [v|sub]; [reflexivity|]. cbn [map]. f_equal. rewrite B, !map_map. apply map_ext_in. intros p P. symmetry. apply dotted_cons.
  eapply paths_cons; eauto.
Qed.
(** all names in the paths are section names *)
Definition good_path (p : list string) : Prop := p <> [] /\ Forall section_name p.
Lemma tidy_inv kvs : tidy kvs -> NoDup (map fst kvs) /\ (exists k v, In (k, Leaf v) kvs) /\
    (forall k v, In (k, Leaf v) kvs -> setting_name k /\ setting_value v) /\
    (forall k sub, In (k, Dict sub) kvs -> section_name k /\ tidy sub).
Proof. intro H. inversion H; subst. auto. Qed.
Lemma good_paths_sub kvs : (forall k sub, In (k, Dict sub) kvs -> section_name k /\ forall p, In p (paths (Dict sub)) -> good_path p) ->
  forall p, In p (paths (Dict kvs)) -> good_path p.
Proof.
  intros H p. rewrite paths_dict. intro I. apply in_concat in I. destruct I as (l & L & I). apply in_map_iff in L.
  destruct L as ([k b] & <- & KB). unfold entry_paths in I. cbn in I. destruct b as [v|sub]; [destruct I|]. destruct (H k sub KB) as [SN SP].
  destruct I as [<-|I]; [split; [discriminate|constructor; auto]|]. apply in_map_iff in I. destruct I as (q & <- & Q). destruct (SP q Q) as [_ F].
  split; [discriminate|constructor; auto].
Qed.
Lemma good_paths_tidy : forall n kvs, n = Dict kvs -> tidy kvs -> forall p, In p (paths n) -> good_path p.
Proof.
  induction n as [v|kvs0 IH] using node_nested; intros kvs E T; [discriminate|]. injection E as ->.
  apply good_paths_sub. intros k sub I. apply tidy_inv in T. destruct T as (_ & _ & _ & D). destruct (D k sub I) as [SN TS]. split; [exact SN|].
  rewrite Forall_forall in IH. exact (IH (k, Dict sub) I sub eq_refl TS).
Qed.
Lemma good_paths kvs : tidy_schedule kvs -> forall p, In p (paths (Dict kvs)) -> good_path p.
Proof.
  intros [_ H]. apply good_paths_sub. intros k sub I. destruct (H k _ I) as (SN & s & E & T). injection E as <-. split; [exact SN|].
  apply (good_paths_tidy _ _ eq_refl T).
Qed.
Lemma avoids_free cs c s : avoids cs s -> In c cs -> char_free c s.
Proof.
  intros A I. induction s as [|d s IH]; [reflexivity|]. apply char_free_cons. split.
  - intros ->. apply (A c); [left; reflexivity|exact I].
  - apply IH. intros e E. apply A. right. exact E.
Qed.
Lemma split_dotted p : good_path p -> str_split "." (dotted p) = p.
Proof.
  intros [NE F]. apply split_join; [exact NE|]. eapply Forall_impl; [|exact F]. intros s [_ A]. apply (avoids_free _ _ _ A). cbn. auto.
Qed.
Definition title (p : list string) : string := join "_" p.
Lemma replace_app a b x y : replace_char a b (x ++ y) = (replace_char a b x ++ replace_char a b y)%string.
Proof. induction x as [|c x IH]; [reflexivity|]. cbn. rewrite IH. reflexivity. Qed.
Lemma replace_free a b s : char_free a s -> replace_char a b s = s.
Proof.
  induction s as [|c s IH]; intro H; [reflexivity|]. apply char_free_cons in H. destruct H as [N H]. cbn. rewrite (IH H).
  destruct (Ascii.eqb_spec c a); [congruence|reflexivity].
Qed.
Lemma replace_join a b p : Forall (char_free a) p -> replace_char a b (join (String a "") p) = join (String b "") p.
Proof.
  induction p as [|x p IH]; intro F; [reflexivity|]. inversion F; subst. destruct p as [|y p]; [cbn; apply replace_free; assumption|].
  change (join (String a "") (x :: y :: p)) with (x ++ String a "" ++ join (String a "") (y :: p))%string.
  change (join (String b "") (x :: y :: p)) with (x ++ String b "" ++ join (String b "") (y :: p))%string.
  rewrite !replace_app, IH by assumption. rewrite replace_free by assumption. cbn. rewrite Ascii.eqb_refl. reflexivity.
Qed.
Lemma path_free c p : good_path p -> In c ["["; "]"; "_"; "."; cr; nl]%char -> Forall (char_free c) p.
Proof. intros [_ F] I. eapply Forall_impl; [|exact F]. intros s [_ A]. apply (avoids_free _ _ _ A I). Qed.
Lemma title_of p : good_path p -> replace_char "." "_" (dotted p) = title p.
Proof. intro G. apply replace_join. apply path_free; [exact G|]. cbn. auto. Qed.
Lemma title_back p : good_path p -> replace_char "_" "." (title p) = dotted p.
Proof. intro G. apply replace_join. apply path_free; [exact G|]. cbn. auto. Qed.

Fixpoint take_paths (ps : list (list string)) (data : node) : option (list (list string * node)) :=
  match ps with
  | [] => Some []
  | p :: r => match get_keys p data with
              | None => None
              | Some b => match take_paths r (unset_keys p data) with Some l => Some ((p, b) :: l) | None => None end
              end
  end.
Lemma take_sections_paths ps : (forall p, In p ps -> good_path p) -> forall data l, take_paths ps data = Some l ->
  take_sections (map dotted ps) data = Ok (map (fun pb => (title (fst pb), snd pb)) l).
Proof.
  induction ps as [|p ps IH]; intros G data l H; [injection H as <-; reflexivity|]. cbn [take_paths] in H. cbn [map take_sections].
  unfold get_path, unset_path. rewrite split_dotted by (apply G; left; reflexivity).
  destruct (get_keys p data) as [b|]; [|discriminate]. destruct (take_paths ps (unset_keys p data)) as [l'|] eqn:E; [|discriminate]. injection H as <-.
  rewrite (IH (fun q Q => G q (or_intror Q)) _ _ E). cbn [bind map fst snd]. rewrite title_of by (apply G; left; reflexivity). reflexivity.
Qed.

(** ** Dictionaries *)
Lemma sget_mid {V} (a b : list (string * V)) k v : ~ In k (map fst a) -> sget (a ++ (k, v) :: b) k = Some v.
Proof.
  unfold sget. induction a as [|[k' v'] a IH]; intro N; cbn; [rewrite String.eqb_refl; reflexivity|].
  destruct (String.eqb_spec k k') as [->|]; [destruct N; left; reflexivity|]. apply IH. intro X. apply N. right. exact X.
Qed.
Lemma sset_mid {V} (a b : list (string * V)) k v w : ~ In k (map fst a) -> sset (a ++ (k, v) :: b) k w = a ++ (k, w) :: b.
Proof.
  unfold sset. induction a as [|[k' v'] a IH]; intro N; cbn; [rewrite String.eqb_refl; reflexivity|].
  destruct (String.eqb_spec k k') as [->|]; [destruct N; left; reflexivity|]. f_equal. apply IH. intro X. apply N. right. exact X.
Qed.
Lemma sdel_mid {V} (a b : list (string * V)) k v : ~ In k (map fst a) -> sdel (a ++ (k, v) :: b) k = a ++ b.
Proof.
  unfold sdel. induction a as [|[k' v'] a IH]; intro N; cbn; [rewrite String.eqb_refl; reflexivity|].
  destruct (String.eqb_spec k k') as [->|]; [destruct N; left; reflexivity|]. f_equal. apply IH. intro X. apply N. right. exact X.
Qed.
Lemma sset_new {V} (a : list (string * V)) k w : ~ In k (map fst a) -> sset a k w = a ++ [(k, w)].
Proof.
  unfold sset. induction a as [|[k' v'] a IH]; intro N; cbn; [reflexivity|].
  destruct (String.eqb_spec k k') as [->|]; [destruct N; left; reflexivity|]. f_equal. apply IH. intro X. apply N. right. exact X.
Qed.
Lemma sget_new {V} (a : list (string * V)) k : ~ In k (map fst a) -> sget a k = None.
Proof.
  unfold sget. induction a as [|[k' v'] a IH]; intro N; cbn; [reflexivity|].
  destruct (String.eqb_spec k k') as [->|]; [destruct N; left; reflexivity|]. apply IH. intro X. apply N. right. exact X.
Qed.

(** ** Taking the sections out *)
Definition leaves (kvs : list (string * node)) : list (string * node) := filter (fun kv => match snd kv with Leaf _ => true | Dict _ => false end) kvs.
(** the sections in order, each with its own settings *)
Fixpoint sections (n : node) : list (list string * node) :=
  match n with
  | Leaf _ => []
  | Dict kvs =>
      (fix go (kvs : list (string * node)) : list (list string * node) :=
         match kvs with
         | [] => []
         | (k, b) :: r =>
             match b with Leaf _ => [] | Dict sub => ([k], Dict (leaves sub)) :: map (fun pb => (k :: fst pb, snd pb)) (sections b) end ++ go r
         end) kvs
  end.
Definition entry_sections (kb : string * node) : list (list string * node) :=
  match snd kb with Leaf _ => [] | Dict sub => ([fst kb], Dict (leaves sub)) :: map (fun pb => (fst kb :: fst pb, snd pb)) (sections (snd kb)) end.
Lemma sections_dict kvs : sections (Dict kvs) = concat (map entry_sections kvs).
Proof. cbn. induction kvs as [|[k b] r IH]; [reflexivity|]. cbn [map concat]. rewrite <- IH. reflexivity. Qed.
Lemma sections_paths n : map fst (sections n) = paths n.
Proof.
  induction n as [v|kvs IH] using node_nested; [reflexivity|]. rewrite paths_dict, sections_dict.
  induction kvs as [|[k b] r IHr]; [reflexivity|]. inversion IH as [|x l B R]; subst. cbn [map concat]. rewrite map_app, (IHr R). f_equal.
  unfold entry_sections, entry_paths. cbn [snd fst] in *. destruct b as [v|sub]; [reflexivity|]. cbn [map fst]. f_equal. rewrite <- B, !map_map. reflexivity.
Qed.
(** removals below a key happen in the value of that key *)
Fixpoint unset_all (ps : list (list string)) (data : node) : node :=
  match ps with [] => data | p :: r => unset_all r (unset_keys p data) end.
Lemma take_app ps qs data : take_paths (ps ++ qs) data =
  match take_paths ps data with Some l => match take_paths qs (unset_all ps data) with Some m => Some (l ++ m) | None => None end | None => None end.
Proof.
  revert data. induction ps as [|p ps IH]; intro data; cbn [take_paths unset_all app]; [destruct (take_paths qs data); reflexivity|].
  destruct (get_keys p data); [|reflexivity]. rewrite IH. destruct (take_paths ps (unset_keys p data)); [|reflexivity].
  destruct (take_paths qs _); reflexivity.
Qed.
Lemma unset_app ps qs data : unset_all (ps ++ qs) data = unset_all qs (unset_all ps data).
Proof. revert data. induction ps as [|p ps IH]; intro data; [reflexivity|]. apply IH. Qed.
Lemma lift_below k a b : ~ In k (map fst a) -> forall ps n, (forall p, In p ps -> p <> []) ->
  take_paths (map (cons k) ps) (Dict (a ++ (k, n) :: b)) = option_map (map (fun pb => (k :: fst pb, snd pb))) (take_paths ps n) /\
  unset_all (map (cons k) ps) (Dict (a ++ (k, n) :: b)) = Dict (a ++ (k, unset_all ps n) :: b).
Proof.
  intro N. induction ps as [|p ps IH]; intros n G; [split; reflexivity|].
  assert (U : unset_keys (k :: p) (Dict (a ++ (k, n) :: b)) = Dict (a ++ (k, unset_keys p n) :: b)).
  { destruct p as [|k2 p]; [destruct (G []); [left; reflexivity|reflexivity]|]. cbn [unset_keys]. rewrite sget_mid by exact N. rewrite sset_mid by exact N. reflexivity. }
  cbn [map take_paths unset_all]. rewrite U. destruct (IH (unset_keys p n) (fun q Q => G q (or_intror Q))) as [A B]. rewrite A, B. split; [|reflexivity].
  cbn [get_keys]. rewrite sget_mid by exact N. destruct (get_keys p n) as [m|]; [|reflexivity].
  destruct (take_paths ps (unset_keys p n)); reflexivity.
Qed.
Lemma tidy_distinct : forall n kvs, n = Dict kvs -> tidy kvs -> distinct n.
Proof.
  induction n as [v|kvs0 IH] using node_nested; intros kvs E T; [discriminate|]. injection E as ->. apply tidy_inv in T. destruct T as (ND & _ & _ & D).
  constructor; [exact ND|]. rewrite Forall_forall in *. intros [k [v|sub]] I; [constructor|]. exact (IH (k, Dict sub) I sub eq_refl (proj2 (D k sub I))).
Qed.
Lemma take_all : forall n, distinct n -> forall kvs, n = Dict kvs ->
  take_paths (rev (paths n)) n = Some (rev (sections n)) /\ unset_all (rev (paths n)) n = Dict (leaves kvs).
Proof.
  induction n as [v|kvs IH] using node_nested; intros DN kvs0 E; [discriminate|]. injection E as <-. inversion DN as [|x ND DF]; subst. clear DN.
  rewrite paths_dict, sections_dict.
  (* entries are taken from the last to the first; those already taken have become leaves *)
  assert (G : forall pre suf, (forall k n, In (k, n) suf -> exists v, n = Leaf v) -> NoDup (map fst (pre ++ suf)) ->
    Forall (fun kv => distinct (snd kv)) pre -> Forall (fun kv => distinct (snd kv) -> forall kvs, snd kv = Dict kvs ->
       take_paths (rev (paths (snd kv))) (snd kv) = Some (rev (sections (snd kv))) /\ unset_all (rev (paths (snd kv))) (snd kv) = Dict (leaves kvs)) pre ->
    take_paths (rev (concat (map entry_paths pre))) (Dict (pre ++ suf)) = Some (rev (concat (map entry_sections pre))) /\
    unset_all (rev (concat (map entry_paths pre))) (Dict (pre ++ suf)) = Dict (leaves pre ++ suf)).
  { clear. induction pre as [|[k n] pre IH] using rev_ind; intros suf SL ND DF IHn; [split; reflexivity|].
    apply Forall_app in DF. destruct DF as [DF1 DF2]. apply Forall_app in IHn. destruct IHn as [IH1 IH2]. inversion DF2 as [|? ? DN _]; subst. inversion IH2 as [|? ? HN _]; subst. cbn [snd] in *.
    rewrite map_app, concat_app, rev_app_distr. rewrite map_app, concat_app, rev_app_distr. cbn [map concat]. rewrite !app_nil_r.
    rewrite <- app_assoc in *. cbn [app] in *. unfold leaves. rewrite filter_app. cbn [filter snd].
    assert (NK : ~ In k (map fst pre)). { rewrite map_app in ND. cbn in ND. apply NoDup_remove_2 in ND. intro X. apply ND. apply in_or_app. left. exact X. }
    destruct n as [v|sub].
    - unfold entry_paths at 1 3, entry_sections at 1. cbn [snd rev app]. rewrite <- app_assoc. cbn [app].
      apply (IH ((k, Leaf v) :: suf)); auto. intros k' n' [X|X]; [injection X as <- <-; eauto|eapply SL; eauto].
    - unfold entry_paths at 1 3, entry_sections at 1. cbn [snd fst rev]. rewrite !take_app, !unset_app. rewrite <- map_rev.
      destruct (HN DN sub eq_refl) as [H1 H2].
      destruct (lift_below k pre suf NK (rev (paths (Dict sub))) (Dict sub)) as [L1 L2]; [intros p P; apply in_rev in P; eapply paths_cons; eauto|].
      rewrite L1, L2, H1, H2. cbn [option_map take_paths unset_all unset_keys get_keys]. rewrite sget_mid by exact NK. cbn [unset_keys]. rewrite sdel_mid by exact NK.
      destruct (IH suf SL) as [I1 I2]; auto. { rewrite map_app in *. cbn in ND. eapply NoDup_remove_1; eauto. }
      rewrite I1, I2, app_nil_r, <- map_rev, <- app_assoc. split; reflexivity. }
  destruct (G kvs []) as [A B]; [intros k n []|rewrite app_nil_r; exact ND|exact DF|exact IH|]. rewrite !app_nil_r in *. auto.
Qed.

(** ** The text *)
Definition settings (kvs : list (string * node)) : list (string * string) :=
  flat_map (fun kv => match snd kv with Leaf v => [(fst kv, v)] | Dict _ => [] end) kvs.
Definition as_leaf (kv : string * string) : string * node := (fst kv, Leaf (snd kv)).
Definition line_of (kv : string * string) : string := (fst kv ++ "=" ++ snd kv)%string.
Lemma leaves_settings kvs : leaves kvs = map as_leaf (settings kvs).
Proof. induction kvs as [|[k [v|sub]] r IH]; cbn; [reflexivity| |exact IH]. unfold as_leaf at 1. cbn. f_equal. exact IH. Qed.
Lemma settings_in kvs k v : In (k, v) (settings kvs) <-> In (k, Leaf v) kvs.
Proof.
  unfold settings. rewrite in_flat_map. split.
  - intros ([k' [v'|sub]] & I & X); cbn in X; [|destruct X]. destruct X as [X|[]]. injection X as -> ->. exact I.
  - intro I. exists (k, Leaf v). split; [exact I|]. cbn. auto.
Qed.
Lemma body_of kvs : body_lines (Dict (leaves kvs)) = Ok (map line_of (settings kvs)).
Proof.
  rewrite leaves_settings. unfold body_lines. induction (settings kvs) as [|[k v] r IH]; [reflexivity|]. cbn [map mapM]. rewrite IH. reflexivity.
Qed.

(** what a line of settings looks like *)
Definition good_setting (kv : string * string) : Prop := setting_name (fst kv) /\ setting_value (snd kv).
Lemma tidy_settings kvs : tidy kvs -> Forall good_setting (settings kvs) /\ settings kvs <> [].
Proof.
  intro T. apply tidy_inv in T. destruct T as (_ & (k & v & I) & S & _). split.
  - apply Forall_forall. intros [k' v'] I'. apply settings_in in I'. exact (S k' v' I').
  - apply settings_in in I. intro E. rewrite E in I. destruct I.
Qed.
Lemma list_ascii_app' : forall a b, list_ascii_of_string (a ++ b) = (list_ascii_of_string a ++ list_ascii_of_string b)%list.
Proof. induction a as [|c a IH]; intro b; [reflexivity|]. cbn. rewrite IH. reflexivity. Qed.
Lemma avoids_app cs a b : avoids cs (a ++ b) <-> avoids cs a /\ avoids cs b.
Proof.
  unfold avoids. rewrite list_ascii_app'. split.
  - intro H. split; intros c I; apply H, in_or_app; auto.
  - intros [A B] c I. apply in_app_or in I. destruct I; auto.
Qed.
Lemma avoids_less cs ds s : avoids cs s -> incl ds cs -> avoids ds s.
Proof. intros A I c C X. exact (A c C (I c X)). Qed.
Lemma avoids_char cs c : ~ In c cs -> avoids cs (String c "").
Proof. intros N d [<-|[]]. exact N. Qed.
Lemma line_avoids kv : good_setting kv -> avoids ["["; "]"; cr; nl]%char (line_of kv).
Proof.
  intros [[K _] [V _]]. unfold line_of. apply avoids_app. split; [eapply avoids_less; [exact K|]; intros c; cbn; tauto|].
  apply avoids_app. split; [|exact V]. apply avoids_char. cbn. intros H. repeat destruct H as [H|H]; try discriminate H. exact H.
Qed.
Lemma is_space_iff c : is_space c = true <-> In c blanks.
Proof.
  assert (A : forallb (fun n => Bool.eqb (is_space (ascii_of_nat n)) (existsb (Ascii.eqb (ascii_of_nat n)) blanks)) (seq 0 256) = true) by (vm_compute; reflexivity).
  rewrite forallb_forall in A. specialize (A (nat_of_ascii c)). rewrite ascii_nat_embedding in A.
  assert (S : is_space c = existsb (Ascii.eqb c) blanks). { apply Bool.eqb_prop, A, in_seq. pose proof (nat_ascii_bounded c). lia. }
  rewrite S. rewrite existsb_exists. split.
  - intros (x & X & E). apply Ascii.eqb_eq in E. subst. exact X.
  - intro I. exists c. split; [exact I|apply Ascii.eqb_refl].
Qed.
Lemma line_head kv : good_setting kv -> exists c r, line_of kv = String c r /\ is_space c = false /\ is_eol c = false.
Proof.
  intros [[K NB] _]. unfold line_of. destruct (fst kv) as [|c r] eqn:E.
  - eexists _, _. split; [reflexivity|]. split; reflexivity.
  - eexists _, _. split; [reflexivity|]. specialize (NB c r eq_refl). split.
    + destruct (is_space c) eqn:S; [|reflexivity]. apply is_space_iff in S. contradiction.
    + unfold is_eol. destruct (Ascii.eqb_spec c cr) as [->|]; [destruct (K cr); cbn; auto 10|]. destruct (Ascii.eqb_spec c nl) as [->|]; [destruct (K nl); cbn; auto 10|]. reflexivity.
Qed.
Lemma last_char s : s <> ""%string -> exists a c, s = (a ++ String c "")%string.
Proof.
  induction s as [|c s IH]; [congruence|]. intros _. destruct s as [|d s]; [exists ""%string, c; reflexivity|].
  destruct IH as (a & e & E); [discriminate|]. exists (String c a), e. cbn. rewrite <- E. reflexivity.
Qed.
Lemma line_tail kv : good_setting kv -> exists a c, line_of kv = (a ++ String c "")%string /\ is_space c = false.
Proof.
  intros [_ [V NB]]. unfold line_of. destruct (snd kv) as [|x r] eqn:E.
  - exists (fst kv), "="%char. split; reflexivity.
  - destruct (last_char (String x r)) as (a & c & L); [discriminate|]. exists (fst kv ++ "=" ++ a)%string, c. rewrite L, !app_assoc_s. split; [reflexivity|].
    destruct (is_space c) eqn:S; [|reflexivity]. apply is_space_iff in S. exfalso. exact (NB a c L S).
Qed.
Fixpoint all_space (s : string) : bool := match s with EmptyString => true | String c r => is_space c && all_space r end.
Lemma lstrip_space s t : all_space s = true -> lstrip (s ++ t) = lstrip t.
Proof. induction s as [|c s IH]; intro H; [reflexivity|]. cbn in *. apply andb_prop in H. destruct H as [-> H]. apply IH. exact H. Qed.
Lemma lstrip_stop c r : is_space c = false -> lstrip (String c r) = String c r.
Proof. intro H. cbn. rewrite H. reflexivity. Qed.
Lemma rstrip_all s : all_space s = true -> rstrip s = ""%string.
Proof. induction s as [|c s IH]; intro H; [reflexivity|]. cbn in *. apply andb_prop in H. destruct H as [S H]. rewrite (IH H), S. reflexivity. Qed.
Lemma rstrip_stop a c s : is_space c = false -> all_space s = true -> rstrip (a ++ String c s) = (a ++ String c "")%string.
Proof.
  intros N S. induction a as [|d a IH]; cbn; [rewrite (rstrip_all s S), N; reflexivity|]. rewrite IH. destruct (a ++ String c "")%string eqn:E; [destruct a; discriminate E|reflexivity].
Qed.
Lemma crlf_space : all_space crlf = true. Proof. reflexivity. Qed.

Lemma join_cons sep x y l : join sep (x :: y :: l) = (x ++ sep ++ join sep (y :: l))%string.
Proof. reflexivity. Qed.
Lemma join_snoc sep l x : l <> [] -> join sep (l ++ [x]) = (join sep l ++ sep ++ x)%string.
Proof.
  induction l as [|a l IH]; [congruence|]. intros _. destruct l as [|b l]; [reflexivity|].
  change ((a :: b :: l) ++ [x]) with (a :: (b :: l) ++ [x]). change (((b :: l) ++ [x])) with (b :: (l ++ [x])). rewrite !join_cons.
  change (b :: (l ++ [x])) with ((b :: l) ++ [x]). rewrite IH by discriminate. rewrite !app_assoc_s. reflexivity.
Qed.
Lemma strip_body kvs : Forall good_setting kvs -> kvs <> [] ->
  strip (crlf ++ join crlf (map line_of kvs) ++ crlf) = join crlf (map line_of kvs).
Proof.
  intros F NE. unfold strip. rewrite lstrip_space by exact crlf_space.
  assert (H1 : exists c r, join crlf (map line_of kvs) = String c r /\ is_space c = false).
  { destruct kvs as [|kv r]; [congruence|]. inversion F; subst. destruct (line_head kv) as (c & t & L & S & _); [assumption|]. destruct r as [|kv2 r]; cbn [map].
    - exists c, t. split; [exact L|exact S].
    - rewrite join_cons, L. exists c, (t ++ crlf ++ join crlf (line_of kv2 :: map line_of r))%string. split; [reflexivity|exact S]. }
  assert (H2 : exists a c, join crlf (map line_of kvs) = (a ++ String c "")%string /\ is_space c = false).
  { destruct (exists_last NE) as (r & kv & ->). apply Forall_app in F. destruct F as [_ F]. inversion F; subst. destruct (line_tail kv) as (a & c & L & S); [assumption|].
    rewrite map_app. cbn [map]. destruct r as [|kv2 r]; [exists a, c; split; [exact L|exact S]|].
    rewrite join_snoc by discriminate. rewrite L. exists (join crlf (map line_of (kv2 :: r)) ++ crlf ++ a)%string, c. rewrite !app_assoc_s. split; [reflexivity|exact S]. }
  destruct H1 as (c1 & r1 & E1 & S1), H2 as (a2 & c2 & E2 & S2).
  assert (L : lstrip (join crlf (map line_of kvs) ++ crlf) = (join crlf (map line_of kvs) ++ crlf)%string) by (rewrite E1; apply lstrip_stop; exact S1).
  rewrite L, E2, app_assoc_s. cbn [append]. apply rstrip_stop; [exact S2|reflexivity].
Qed.
Lemma split_eol_free l t : avoids [cr; nl] l -> split_eol (l ++ t) = (let (a, b) := split_eol t in ((l ++ a)%string, b)).
Proof.
  induction l as [|c l IH]; intro A; [cbn; destruct (split_eol t); reflexivity|].
  cbn [append split_eol]. rewrite IH by (intros d D; apply A; right; exact D).
  assert (E : is_eol c = false).
  { unfold is_eol. destruct (Ascii.eqb_spec c cr) as [->|]; [destruct (A cr); cbn; auto|]. destruct (Ascii.eqb_spec c nl) as [->|]; [destruct (A nl); cbn; auto|]. reflexivity. }
  rewrite E. destruct (split_eol t) as [a b]. reflexivity.
Qed.
Lemma split_eol_lines kvs kv : Forall good_setting (kv :: kvs) -> split_eol (join crlf (map line_of (kv :: kvs))) = (line_of kv, map line_of kvs).
Proof.
  revert kv. induction kvs as [|kv2 kvs IH]; intros kv F; inversion F as [|? ? G F']; subst.
  - cbn [map join]. pose proof (split_eol_free (line_of kv) "") as S. rewrite app_nil_s in S. rewrite S; [cbn; rewrite app_nil_s; reflexivity|].
    eapply avoids_less; [apply line_avoids; exact G|]. intros c; cbn; tauto.
  - cbn [map]. rewrite join_cons, split_eol_free by (eapply avoids_less; [apply line_avoids; exact G|]; intros c; cbn; tauto).
    specialize (IH kv2 F'). cbn [map] in IH. unfold crlf at 1. cbn [append split_eol]. rewrite IH.
    inversion F' as [|? ? G2 _]; subst. destruct (line_head kv2 G2) as (c & r & L & _ & E).
    assert (HD : exists s, join crlf (line_of kv2 :: map line_of kvs) = String c s).
    { destruct kvs as [|kv3 kvs]; cbn [map]; [exists r; exact L|rewrite join_cons, L; eexists; reflexivity]. }
    destruct HD as (s & ->). rewrite E. change (is_eol cr) with true. change (is_eol nl) with true. cbn. rewrite app_nil_s. reflexivity.
Qed.
Lemma cut_first_free c a b : char_free c a -> cut_first c (a ++ String c b) = Some (a, b).
Proof.
  induction a as [|d a IH]; intro F; cbn; [rewrite Ascii.eqb_refl; reflexivity|]. apply char_free_cons in F. destruct F as [N F].
  destruct (Ascii.eqb_spec d c); [congruence|]. rewrite (IH F). reflexivity.
Qed.
Lemma cut_first_none c a : char_free c a -> cut_first c a = None.
Proof.
  induction a as [|d a IH]; intro F; cbn; [reflexivity|]. apply char_free_cons in F. destruct F as [N F].
  destruct (Ascii.eqb_spec d c); [congruence|]. rewrite (IH F). reflexivity.
Qed.
Lemma cut_last_none c a : char_free c a -> cut_last c a = None.
Proof.
  induction a as [|d a IH]; intro F; cbn; [reflexivity|]. apply char_free_cons in F. destruct F as [N F].
  rewrite (IH F). destruct (Ascii.eqb_spec d c); [congruence|reflexivity].
Qed.
Lemma cut_last_free c a b : char_free c b -> cut_last c (a ++ String c b) = Some (a, b).
Proof. intro F. induction a as [|d a IH]; cbn; [rewrite (cut_last_none _ _ F), Ascii.eqb_refl; reflexivity|]. rewrite IH. reflexivity. Qed.
Lemma entries_of kvs : Forall good_setting kvs -> mapM entry_of (map line_of kvs) = Ok kvs.
Proof.
  intro F. induction F as [|[k v] r G F IH]; [reflexivity|]. cbn [map mapM]. unfold entry_of at 1, line_of at 1. cbn [fst snd append].
  destruct G as [[K _] _]. cbn [fst] in K. rewrite cut_first_free by (apply (avoids_free _ _ _ K); cbn; auto). cbn [bind]. rewrite IH. reflexivity.
Qed.
Lemma fold_settings (l : list (string * string)) (acc : list (string * node)) : NoDup (map fst acc ++ map fst l) ->
  fold_left (fun d kv => sset d (fst kv) (Leaf (snd kv))) l acc = acc ++ map as_leaf l.
Proof.
  revert acc. induction l as [|[k v] l IH]; intros acc ND; cbn [fold_left map]; [rewrite app_nil_r; reflexivity|]. cbn [fst snd] in *.
  rewrite sset_new.
  - rewrite IH; [rewrite <- app_assoc; reflexivity|]. rewrite map_app. cbn. rewrite <- app_assoc. exact ND.
  - cbn in ND. apply NoDup_remove_2 in ND. intro X. apply ND. apply in_or_app. left. exact X.
Qed.
Lemma settings_nodup kvs : NoDup (map fst kvs) -> NoDup (map fst (settings kvs)).
Proof.
  induction kvs as [|[k n] r IH]; intro ND; [constructor|]. inversion ND as [|? ? NI ND']; subst. destruct n as [v|sub]; cbn; [|apply IH; exact ND'].
  constructor; [|apply IH; exact ND']. intro I. apply NI. apply in_map_iff in I. destruct I as ([k2 v2] & E & I). cbn in E. subst k2. apply settings_in in I.
  apply in_map_iff. exists (k, Leaf v2). split; [reflexivity|exact I].
Qed.
Lemma parse_written kvs : tidy kvs -> parse_body (crlf ++ join crlf (map line_of (settings kvs)) ++ crlf) = Ok (Dict (leaves kvs)).
Proof.
  intro T. destruct (tidy_settings kvs T) as [F NE]. unfold parse_body. rewrite strip_body by assumption.
  destruct (settings kvs) as [|kv r] eqn:E; [congruence|]. rewrite split_eol_lines by exact F. change (line_of kv :: map line_of r) with (map line_of (kv :: r)).
  rewrite entries_of by exact F. cbn [bind]. rewrite fold_settings.
  - cbn [app]. rewrite leaves_settings, E. reflexivity.
  - cbn [map app]. change (NoDup (map fst (kv :: r))). rewrite <- E. apply settings_nodup. apply tidy_inv in T. apply T.
Qed.

(** ** Finding the sections again *)
Definition written_section : Type := list string * list (string * string).
Definition good_section (s : written_section) : Prop := good_path (fst s) /\ Forall good_setting (snd s) /\ snd s <> [].
Definition section_text (s : written_section) : string := ("[" ++ title (fst s) ++ "]" ++ crlf ++ join crlf (map line_of (snd s)))%string.
Fixpoint sections_text (l : list written_section) : string :=
  match l with [] => ""%string | s :: r => (section_text s ++ crlf ++ sections_text r)%string end.
Lemma join_sections l : l <> [] -> (join crlf (map section_text l) ++ crlf)%string = sections_text l.
Proof.
  induction l as [|s l IH]; [congruence|]. intros _. destruct l as [|s2 l]; [reflexivity|].
  cbn [map]. rewrite join_cons, !app_assoc_s. cbn [sections_text]. do 2 f_equal. apply IH. discriminate.
Qed.
Lemma free_join c sep p : Forall (char_free c) p -> char_free c sep -> char_free c (join sep p).
Proof.
  intros F S. induction F as [|x p X F IH]; [reflexivity|]. destruct p as [|y p]; [exact X|]. rewrite join_cons. apply char_free_app. split; [exact X|].
  apply char_free_app. split; assumption.
Qed.
Lemma title_free c p : good_path p -> In c ["["; "]"; cr; nl]%char -> char_free c (title p).
Proof.
  intros G I. apply free_join.
  - apply path_free; [exact G|]. cbn in *. tauto.
  - cbn in I. destruct I as [<-|[<-|[<-|[<-|[]]]]]; reflexivity.
Qed.
Lemma title_nonempty p : good_path p -> title p <> ""%string.
Proof.
  intros [NE F]. destruct p as [|x p]; [congruence|]. inversion F as [|? ? [N _] _]; subst. destruct p as [|y p]; [exact N|].
  unfold title. rewrite join_cons. destruct x; [congruence|discriminate].
Qed.
Lemma split_line l rest : char_free nl l -> str_split (String nl "") (l ++ crlf ++ rest) = (l ++ String cr "")%string :: str_split (String nl "") rest.
Proof.
  intro F. unfold crlf. replace (l ++ String cr (String nl "") ++ rest)%string with ((l ++ String cr "") ++ String nl rest)%string by (rewrite app_assoc_s; reflexivity).
  apply str_split_char. apply char_free_app. split; [exact F|reflexivity].
Qed.
Lemma split_lines ls rest : Forall (char_free nl) ls -> ls <> [] ->
  str_split (String nl "") (join crlf ls ++ crlf ++ rest) = map (fun l => (l ++ String cr "")%string) ls ++ str_split (String nl "") rest.
Proof.
  induction ls as [|l ls IH]; [congruence|]. intros F _. inversion F; subst. destruct ls as [|l2 ls]; [apply split_line; assumption|].
  rewrite join_cons, !app_assoc_s, split_line by assumption. rewrite IH; [reflexivity|assumption|discriminate].
Qed.
Lemma line_free kv c : good_setting kv -> In c ["["; "]"; cr; nl]%char -> char_free c (line_of kv).
Proof. intros G I. apply (avoids_free _ _ _ (line_avoids kv G) I). Qed.
Lemma no_heading s : char_free "[" s -> find_heading s = None.
Proof. intro F. unfold find_heading. rewrite (cut_first_none _ _ F). reflexivity. Qed.
Lemma heading_line p : good_path p -> find_heading ("[" ++ title p ++ "]" ++ String cr "") = Some (""%string, title p, String cr "").
Proof.
  intro G. unfold find_heading. change ("[" ++ title p ++ "]" ++ String cr "")%string with ("" ++ String "[" (title p ++ String "]" (String cr "")))%string.
  rewrite cut_first_free by reflexivity. rewrite cut_last_free by reflexivity. destruct (String.eqb_spec (title p) ""); [destruct (title_nonempty p G); assumption|reflexivity].
Qed.
Lemma scan_lines kvs R h b : Forall good_setting kvs ->
  scan (map (fun l => (l ++ String cr "")%string) (map line_of kvs) ++ R) (Some (h, b)) =
  scan R (Some (h, fold_left (fun b kv => (b ++ String nl (line_of kv ++ String cr ""))%string) kvs b)).
Proof.
  intro F. revert b. induction F as [|kv r G F IH]; intro b; [reflexivity|]. cbn [map app scan fold_left].
  rewrite no_heading; [apply IH|]. apply char_free_app. split; [apply line_free; [exact G|]; cbn; auto|reflexivity].
Qed.
Lemma body_fold kvs b : kvs <> [] -> fold_left (fun b kv => (b ++ String nl (line_of kv ++ String cr ""))%string) kvs b =
  (b ++ String nl "" ++ join crlf (map line_of kvs) ++ String cr "")%string.
Proof.
  revert b. induction kvs as [|kv kvs IH]; intros b NE; [congruence|]. cbn [fold_left]. destruct kvs as [|kv2 kvs]; [reflexivity|].
  rewrite IH by discriminate. cbn [map]. rewrite join_cons, !app_assoc_s. cbn [append]. rewrite ?app_assoc_s. reflexivity.
Qed.
Definition close (cur : option (string * string)) : list (string * string) :=
  match cur with Some (h, b) => [(h, (b ++ String nl "")%string)] | None => [] end.
Lemma scan_sections l : Forall good_section l -> forall cur, scan (str_split (String nl "") (sections_text l)) cur =
  close cur ++ map (fun s => (title (fst s), (crlf ++ join crlf (map line_of (snd s)) ++ crlf)%string)) l.
Proof.
  intro F. induction F as [|[p kvs] l G F IH]; intro cur.
  - cbn. destruct cur as [[h b]|]; reflexivity.
  - destruct G as (G & GS & NE). cbn [fst snd] in *. cbn [sections_text]. unfold section_text. cbn [fst snd].
    replace (("[" ++ title p ++ "]" ++ crlf ++ join crlf (map line_of kvs)) ++ crlf ++ sections_text l)%string
      with (("[" ++ title p ++ "]") ++ crlf ++ join crlf (map line_of kvs) ++ crlf ++ sections_text l)%string by (rewrite !app_assoc_s; reflexivity).
    rewrite split_line.
    2:{ apply char_free_app. split; [reflexivity|]. apply char_free_app. split; [apply title_free; [exact G|cbn; auto]|reflexivity]. }
    rewrite split_lines; [|apply Forall_map; eapply Forall_impl; [|exact GS]; intros kv K; apply line_free; [exact K|cbn; auto]|destruct kvs; [congruence|discriminate]].
    cbn [scan]. replace (("[" ++ title p ++ "]") ++ String cr "")%string with ("[" ++ title p ++ "]" ++ String cr "")%string by (rewrite !app_assoc_s; reflexivity).
    rewrite heading_line by exact G. rewrite scan_lines by exact GS. rewrite IH, body_fold by exact NE. cbn [map fst snd close].
    assert (J : ((String cr "" ++ String nl "" ++ join crlf (map line_of kvs) ++ String cr "") ++ String nl "")%string = (crlf ++ join crlf (map line_of kvs) ++ crlf)%string)
      by (unfold crlf; cbn [append]; rewrite ?app_assoc_s; reflexivity).
    rewrite J. destruct cur as [[h b]|]; reflexivity.
Qed.

(** ** Putting them back *)
Fixpoint set_all (secs : list (list string * node)) (obj : node) : result node :=
  match secs with [] => Ok obj | (p, d) :: r => let! obj := set_keys p d obj in set_all r obj end.
Lemma set_all_app a b obj : set_all (a ++ b) obj = (let! o := set_all a obj in set_all b o).
Proof. revert obj. induction a as [|[p d] a IH]; intro obj; [reflexivity|]. cbn. destruct (set_keys p d obj); [apply IH|reflexivity]. Qed.
Lemma set_below k a b : ~ In k (map fst a) -> forall secs n,
  set_all (map (fun pb => (k :: fst pb, snd pb)) secs) (Dict (a ++ (k, n) :: b)) = (let! m := set_all secs n in Ok (Dict (a ++ (k, m) :: b))).
Proof.
  intro N. induction secs as [|[p d] secs IH]; intro n; [reflexivity|]. cbn [map set_all fst snd set_keys]. rewrite sget_mid by exact N.
  destruct (set_keys p d n) as [m|e]; [|reflexivity]. cbn [bind]. rewrite sset_mid by exact N. apply IH.
Qed.
Fixpoint arrange (n : node) : node :=
  match n with
  | Leaf v => Leaf v
  | Dict kvs => Dict (leaves kvs ++ (fix go kvs := match kvs with [] => [] | (k, b) :: r => match b with Leaf _ => [] | Dict _ => [(k, arrange b)] end ++ go r end) kvs)
  end.
Definition subs (kvs : list (string * node)) : list (string * node) :=
  flat_map (fun kb => match snd kb with Leaf _ => [] | Dict _ => [(fst kb, arrange (snd kb))] end) kvs.
Lemma arrange_dict kvs : arrange (Dict kvs) = Dict (leaves kvs ++ subs kvs).
Proof. cbn. f_equal. f_equal. induction kvs as [|[k b] r IH]; [reflexivity|]. cbn. rewrite IH. reflexivity. Qed.
Lemma leaves_keys kvs k : In k (map fst (leaves kvs)) -> In k (map fst kvs).
Proof. intro I. apply in_map_iff in I. destruct I as (x & <- & I). apply filter_In in I. apply in_map. apply I. Qed.
Lemma subs_keys kvs k : In k (map fst (subs kvs)) -> exists s, In (k, Dict s) kvs.
Proof.
  intro I. apply in_map_iff in I. destruct I as ([k' n] & <- & I). apply in_flat_map in I. destruct I as ([k2 [v|s]] & J & X); cbn in X; [destruct X|].
  destruct X as [X|[]]. injection X as <- _. cbn. eauto.
Qed.
Lemma set_all_sections : forall n, distinct n -> forall kvs, n = Dict kvs ->
  forall acc, (forall k s, In (k, Dict s) kvs -> ~ In k (map fst acc)) -> set_all (sections n) (Dict acc) = Ok (Dict (acc ++ subs kvs)).
Proof.
  induction n as [v|kvs IH] using node_nested; intros DN kvs0 E acc DJ; [discriminate|]. injection E as <-. inversion DN as [|x ND DF]; subst. clear DN.
  rewrite sections_dict. revert acc DJ. induction kvs as [|[k b] r IHr]; intros acc DJ; [cbn; rewrite app_nil_r; reflexivity|].
  inversion IH as [|? ? IB IR]; subst. inversion DF as [|? ? DB DR]; subst. inversion ND as [|? ? NI NR]; subst. cbn [snd] in *.
  cbn [map concat]. rewrite set_all_app. destruct b as [v|sub].
  - cbn [entry_sections snd set_all bind subs flat_map app]. unfold entry_sections. cbn [snd set_all bind]. apply IHr; auto. intros k' s' I. eapply DJ. right. exact I.
  - assert (NK : ~ In k (map fst acc)) by (eapply DJ; left; reflexivity).
    unfold entry_sections at 1. cbn [snd fst set_all set_keys bind]. rewrite sset_new by exact NK.
    rewrite set_below by exact NK. rewrite (IB DB sub eq_refl (leaves sub)).
    + cbn [bind]. rewrite IHr; auto.
      * rewrite <- app_assoc. cbn [app]. unfold subs. cbn [flat_map snd fst app]. rewrite arrange_dict. reflexivity.
      * intros k' s' I. rewrite map_app. intro X. apply in_app_or in X. destruct X as [X|[X|[]]]; [eapply DJ; [right; exact I|exact X]|].
        cbn in X. subst k'. apply NI. apply in_map_iff. exists (k, Dict s'). auto.
    + intros k' s' I X. inversion DB as [|? NDs _]; subst. clear -I X NDs. apply in_map_iff in X. destruct X as ([k2 n2] & EQ & X). cbn in EQ. subst k2.
      apply filter_In in X. destruct X as [X Y]. cbn in Y. destruct n2 as [v|]; [|discriminate]. clear Y.
      apply (sget_in _ _ _ NDs) in I. apply (sget_in _ _ _ NDs) in X. congruence.
Qed.
Lemma load_as_set l obj : Forall (fun pb => good_path (fst pb) /\ exists kvs, snd pb = Dict (leaves kvs) /\ tidy kvs) l ->
  load_sections (map (fun pb => (title (fst pb), match snd pb with Dict d => (crlf ++ join crlf (map line_of (settings d)) ++ crlf)%string | Leaf _ => ""%string end)) l) obj
  = set_all l obj.
Proof.
  intro F. revert obj. induction F as [|[p b] l (G & kvs & E & T) F IH]; intro obj; [reflexivity|]. cbn [snd] in E. subst b. cbn [map load_sections set_all fst snd].
  assert (SL : settings (leaves kvs) = settings kvs).
  { rewrite leaves_settings. induction (settings kvs) as [|[k v] r IHs]; [reflexivity|]. cbn. f_equal. exact IHs. }
  rewrite SL, parse_written by exact T. cbn [bind]. cbn [fst] in G. rewrite title_back by exact G. unfold set_path. rewrite split_dotted by exact G.
  destruct (set_keys p (Dict (leaves kvs)) obj); [apply IH|reflexivity].
Qed.
(** every section of a tidy schedule is tidy *)
Definition fine (pb : list string * node) : Prop := good_path (fst pb) /\ exists kvs, snd pb = Dict (leaves kvs) /\ tidy kvs.
Lemma sections_sub kvs : (forall k sub, In (k, Dict sub) kvs -> section_name k /\ tidy sub /\ Forall fine (sections (Dict sub))) -> Forall fine (sections (Dict kvs)).
Proof.
  intro H. rewrite sections_dict. apply Forall_concat. apply Forall_map, Forall_forall. intros [k [v|sub]] I; unfold entry_sections; cbn [snd fst]; [constructor|].
  destruct (H k sub I) as (SN & TS & FS). constructor.
  - split; [split; [discriminate|constructor; auto]|]. exists sub. auto.
  - apply Forall_map. eapply Forall_impl; [|exact FS]. intros [p b] ([NE G] & X). cbn [fst snd] in *. split; [split; [discriminate|constructor; auto]|exact X].
Qed.
Lemma sections_tidy : forall n kvs, n = Dict kvs -> tidy kvs -> Forall fine (sections n).
Proof.
  induction n as [v|kvs0 IH] using node_nested; intros kvs E T; [discriminate|]. injection E as ->. apply sections_sub. intros k sub I.
  apply tidy_inv in T. destruct T as (_ & _ & _ & D). destruct (D k sub I) as [SN TS]. split; [exact SN|]. split; [exact TS|].
  rewrite Forall_forall in IH. exact (IH (k, Dict sub) I sub eq_refl TS).
Qed.
Lemma schedule_fine kvs : tidy_schedule kvs -> Forall fine (sections (Dict kvs)).
Proof.
  intros [_ H]. apply sections_sub. intros k sub I. destruct (H k _ I) as (SN & s & E & T). injection E as <-. split; [exact SN|]. split; [exact T|].
  apply (sections_tidy _ _ eq_refl T).
Qed.
Lemma schedule_distinct kvs : tidy_schedule kvs -> distinct (Dict kvs).
Proof.
  intros [ND H]. constructor; [exact ND|]. apply Forall_forall. intros [k n] I. destruct (H k n I) as (_ & s & -> & T). apply (tidy_distinct _ _ eq_refl T).
Qed.
Lemma write_schedule kvs : tidy_schedule kvs -> exists text, schedule_text (Dict kvs) = Ok text /\
  split_headings text = map (fun pb => (title (fst pb), match snd pb with Dict d => (crlf ++ join crlf (map line_of (settings d)) ++ crlf)%string | Leaf _ => ""%string end)) (sections (Dict kvs)).
Proof.
  intro T. pose proof (schedule_fine kvs T) as FN. unfold schedule_text. rewrite headings_paths, <- map_rev.
  destruct (take_all _ (schedule_distinct kvs T) kvs eq_refl) as [TA _].
  rewrite (take_sections_paths _) with (l := rev (sections (Dict kvs))); [|intros p P; apply in_rev in P; eapply good_paths; eauto|exact TA].
  cbn [bind]. rewrite <- map_rev, rev_involutive.
  set (ws := fun pb : list string * node => (fst pb, match snd pb with Dict d => settings d | Leaf _ => [] end)).
  assert (BL : mapM block_text (map (fun pb => (title (fst pb), snd pb)) (sections (Dict kvs))) = Ok (map section_text (map ws (sections (Dict kvs))))).
  { clear TA. induction FN as [|[p b] l (G & sub & E & TS) F IH]; [reflexivity|]. cbn [snd] in E. subst b. cbn [map mapM fst snd]. rewrite IH.
    assert (SL : settings (leaves sub) = settings sub).
    { rewrite leaves_settings. induction (settings sub) as [|[k v] r IHs]; [reflexivity|]. cbn. f_equal. exact IHs. }
    assert (BT : block_text (title p, Dict (leaves sub)) = Ok (section_text (ws (p, Dict (leaves sub))))).
    { unfold block_text. cbn [fst snd]. rewrite body_of. cbn [bind]. unfold section_text, ws. cbn [fst snd]. rewrite SL, join_cons. cbn [join]. rewrite !app_assoc_s. reflexivity. }
    rewrite BT. reflexivity. }
  rewrite BL. cbn [bind]. eexists. split; [reflexivity|].
  destruct (sections (Dict kvs)) as [|s0 r0] eqn:ES; [reflexivity|]. rewrite <- ES in *. clear s0 r0 ES.
  destruct (map ws (sections (Dict kvs))) as [|w0 wr] eqn:EW; [destruct (sections (Dict kvs)); [reflexivity|discriminate EW]|].
  rewrite join_sections by discriminate. rewrite <- EW. unfold split_headings.
  rewrite scan_sections.
  - cbn [close app]. rewrite map_map. apply map_ext_in. intros [p b] I. rewrite Forall_forall in FN. destruct (FN _ I) as (_ & sub & E & _). cbn [snd] in E. subst b. reflexivity.
  - apply Forall_map. eapply Forall_impl; [|exact FN]. intros [p b] (G & sub & E & TS). cbn [snd fst] in *. subst b. unfold ws. cbn [fst snd]. split; [exact G|]. cbn [snd].
    assert (SL : settings (leaves sub) = settings sub).
    { rewrite leaves_settings. induction (settings sub) as [|[k v] r IHs]; [reflexivity|]. cbn. f_equal. exact IHs. }
    rewrite SL. apply tidy_settings. exact TS.
Qed.
Lemma subs_only kvs : (forall k n, In (k, n) kvs -> exists sub, n = Dict sub /\ tidy sub) -> leaves kvs = [].
Proof.
  induction kvs as [|[k n] r IH]; intro H; [reflexivity|]. destruct (H k n) as (s & -> & _); [left; reflexivity|]. cbn. apply IH. intros k' n' I. eapply H. right. exact I.
Qed.
Theorem reload kvs : tidy_schedule kvs -> exists text, schedule_text (Dict kvs) = Ok text /\ schedule_of text = Ok (arrange (Dict kvs)).
Proof.
  intro T. destruct (write_schedule kvs T) as (text & W & S). exists text. split; [exact W|]. unfold schedule_of. rewrite S.
  rewrite load_as_set by (exact (schedule_fine kvs T)).
  rewrite (set_all_sections _ (schedule_distinct kvs T) kvs eq_refl) by (intros k s I X; destruct X).
  rewrite arrange_dict, subs_only; [reflexivity|]. intros k n I. destruct T as [_ T]. destruct (T k n I) as (_ & X). exact X.
Qed.
(** nothing is lost by arranging *)
Lemma arrange_holds : forall n p v, holds (arrange n) p v <-> holds n p v.
Proof.
  induction n as [w|kvs IH] using node_nested; intros p v; [reflexivity|]. rewrite arrange_dict. rewrite Forall_forall in IH. split; intro H; inversion H as [|? k n q ? I HN]; subst.
  - apply in_app_or in I. destruct I as [I|I].
    + apply filter_In in I. apply (holds_in _ k n); [apply I|exact HN].
    + apply in_flat_map in I. destruct I as ([k2 b] & J & X). cbn in X. destruct b as [w|sub]; [destruct X|]. destruct X as [X|[]]. injection X as <- <-.
      apply (holds_in _ k2 (Dict sub)); [exact J|]. apply (IH (k2, Dict sub) J). exact HN.
  - destruct n as [w|sub].
    + apply (holds_in _ k (Leaf w)); [|exact HN]. apply in_or_app. left. apply filter_In. auto.
    + apply (holds_in _ k (arrange (Dict sub))); [|apply (IH (k, Dict sub) I); exact HN]. apply in_or_app. right. apply in_flat_map. exists (k, Dict sub). split; [exact I|]. left. reflexivity.
Qed.
Lemma arrange_ordered : forall n kvs, n = Dict kvs -> ordered kvs -> arrange n = n.
Proof.
  induction n as [w|kvs0 IH] using node_nested; intros kvs E O; [discriminate|]. injection E as ->. rewrite arrange_dict. inversion O as [ls ds L D]; subst. f_equal.
  unfold leaves, subs. rewrite filter_app, flat_map_app. rewrite Forall_forall in IH.
  assert (L1 : forall l : list (string * node), (forall k n, In (k, n) l -> exists v, n = Leaf v) -> filter (fun kv => match snd kv with Leaf _ => true | Dict _ => false end) l = l /\
      flat_map (fun kb : string * node => match snd kb with Leaf _ => [] | Dict _ => [(fst kb, arrange (snd kb))] end) l = []).
  { clear. induction l as [|[k n] l IH]; intro H; [auto|]. destruct (H k n) as (v & ->); [left; reflexivity|]. destruct IH as [A B]; [intros k' n' I; eapply H; right; exact I|].
    cbn. rewrite A. split; [reflexivity|exact B]. }
  assert (D1 : forall l : list (string * node), (forall k n, In (k, n) l -> exists sub, n = Dict sub /\ arrange n = n) -> filter (fun kv => match snd kv with Leaf _ => true | Dict _ => false end) l = [] /\
      flat_map (fun kb : string * node => match snd kb with Leaf _ => [] | Dict _ => [(fst kb, arrange (snd kb))] end) l = l).
  { clear. induction l as [|[k n] l IH]; intro H; [auto|]. destruct (H k n) as (s & -> & A0); [left; reflexivity|]. destruct IH as [A B]; [intros k' n' I; eapply H; right; exact I|].
    cbn [filter flat_map snd fst app]. rewrite A0, B. split; [exact A|reflexivity]. }
  destruct (L1 ls L) as [A1 A2]. destruct (D1 ds) as [B1 B2].
  { intros k n I. destruct (D k n I) as (sub & -> & OS). exists sub. split; [reflexivity|]. apply (IH (k, Dict sub)) with (kvs := sub); [apply in_or_app; right; exact I|reflexivity|exact OS]. }
  rewrite A1, A2, B1, B2, app_nil_r. reflexivity.
Qed.
