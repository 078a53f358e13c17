(** C122, C123, C125. *)
From Verif Require Import Py Num Model_Text Model_Arbin Model_Maccor Model_Cmd Model_Stamp Model_RawFile.
From Verif Require Import Spec_Numeral Spec_Maccor Spec_Cmd Spec_Stamp Spec_RawFile.
From Verif Require Import Proofs_Text Proofs_Strings Proofs_Arbin Proofs_Maccor Proofs_Datapath Proofs_Diagnostic Proofs_Stamp.
From Verif Require Proofs_Featurize Proofs_Numeral.

(** ** Blanks *)
Lemma space_iff c : is_space c = true <-> blank_char c.
Proof.
  unfold is_space, blank_char. set (n := nat_of_ascii c). assert (B : (n < 256)%nat) by apply nat_ascii_bounded. clearbody n. split.
  - intro H. repeat rewrite orb_true_iff in H. repeat rewrite andb_true_iff in H. repeat rewrite Nat.leb_le in H. repeat rewrite Nat.eqb_eq in H. cbn [In]. lia.
  - intro H. repeat rewrite orb_true_iff. repeat rewrite andb_true_iff. repeat rewrite Nat.leb_le. repeat rewrite Nat.eqb_eq. cbn [In] in H. lia.
Qed.
Lemma all_blank_space s : all_blank s -> all_space s = true.
Proof.
  induction s as [|c s IH]; intro H; [reflexivity|]. cbn. apply andb_true_iff. split; [apply space_iff; apply H; left; reflexivity|].
  apply IH. intros d I. apply H. right. exact I.
Qed.
Lemma strip_holds t v : holds t v -> strip t = v.
Proof.
  intros ([F L] & a & b & A & B & ->). apply all_blank_space in A, B. unfold strip. rewrite lstrip_space by exact A.
  destruct v as [|c v].
  - cbn [append]. rewrite <- (app_nil_s b), lstrip_space by exact B. reflexivity.
  - cbn [append]. rewrite lstrip_stop.
    + destruct (last_char (String c v)) as (x & d & E); [discriminate|]. change (String c (v ++ b)) with (String c v ++ b)%string. rewrite E, app_assoc_s.
      cbn [append]. apply rstrip_stop; [|exact B]. destruct (is_space d) eqn:S; [|reflexivity]. apply space_iff in S. exfalso. exact (L _ _ E S).
    + destruct (is_space c) eqn:S; [|reflexivity]. apply space_iff in S. exfalso. exact (F _ _ eq_refl S).
Qed.

(** ** Metadata of a Maccor file *)
Lemma parse_header line t1 t2 t3 t4 t5 v1 v2 v3 v4 v5 :
  line = header ""%string (header_line t1 t2 t3 t4 t5) -> unambiguous ""%string (header_line t1 t2 t3 t4 t5) ->
  holds t1 v1 -> holds t2 v2 -> holds t3 v3 -> holds t4 v4 -> holds t5 v5 ->
  parse_metadata line = Ok [("Today's Date", MText v1); ("Date of Test", MText v2); ("Filename", MText v3); ("Procedure", MText v4); ("Comment/Barcode", MText v5)]%string.
Proof.
  intros -> U H1 H2 H3 H4 H5. unfold parse_metadata.
  pose proof (fields_recovered ""%string (header_line t1 t2 t3 t4 t5) ltac:(discriminate) U) as E.
  change (map fst (header_line t1 t2 t3 t4 t5)) with header_fields in E. rewrite E.
  cbn [bind header_line map snd combine header_fields fst]. rewrite (strip_holds _ _ H1), (strip_holds _ _ H2), (strip_holds _ _ H3), (strip_holds _ _ H4), (strip_holds _ _ H5).
  reflexivity.
Qed.
Definition four_fields (v1 v2 v3 v4 v5 : string) : list (string * mval) :=
  [("_today_datetime", MText v1); ("start_datetime", MText v2); ("filename", MText v3); ("protocol", MText v4); ("barcode", MText v5)]%string.
Lemma name_extension dir stem ext : good_name stem ext -> splitext (basename (file_name dir stem ext)) = (stem, ("." ++ ext)%string).
Proof.
  intros (S & E & D & c & I & N). unfold file_name. rewrite Proofs_Featurize.basename_last.
  - unfold splitext. rewrite Proofs_Featurize.last_dot_app by exact D.
    assert (O : only_dots stem = false); [|rewrite O; reflexivity].
    clear -I N. induction stem as [|d s IH]; [destruct I|]. cbn. destruct I as [-> | I]; [destruct (Ascii.eqb_spec c "."); [congruence|reflexivity]|].
    rewrite (IH I). apply andb_false_r.
  - change (char_free "/" (stem ++ String "." ext)). apply char_free_app. split; [exact S|]. apply char_free_cons. split; [discriminate | exact E].
Qed.
Lemma undot ext : dot_free ext -> replace_text "." "" ("." ++ ext)%string = ext.
Proof.
  intro D. unfold replace_text. change ("." ++ ext)%string with ("" ++ String "." ext)%string. rewrite str_split_char by reflexivity.
  rewrite str_split_none by exact D. reflexivity.
Qed.
Lemma undot_none : replace_text "." "" ""%string = ""%string.
Proof. reflexivity. Qed.

Lemma maccor_metadata_ok path first line t1 t2 t3 t4 t5 v1 v2 v3 v4 v5 :
  holds first line -> line = header ""%string (header_line t1 t2 t3 t4 t5) -> unambiguous ""%string (header_line t1 t2 t3 t4 t5) ->
  holds t1 v1 -> holds t2 v2 -> holds t3 v3 -> holds t4 v4 -> holds t5 v5 ->
  maccor_metadata path first = Ok (four_fields v1 v2 v3 v4 v5 ++
    match parse_int (replace_text "." "" (snd (splitext (basename path)))) with Some z => [("channel_id"%string, MNum z)] | None => [("channnel_id"%string, MNone)] end)%list.
Proof.
  intros H E U H1 H2 H3 H4 H5. unfold maccor_metadata. rewrite (strip_holds _ _ H), (parse_header _ _ _ _ _ _ _ _ _ _ _ E U H1 H2 H3 H4 H5). cbn [bind].
  unfold with_channel. destruct (parse_int _); reflexivity.
Qed.
Lemma channel_number dir stem ext z : good_name stem ext -> integer ext z ->
  parse_int (replace_text "." "" (snd (splitext (basename (file_name dir stem ext))))) = Some z.
Proof. intros G I. rewrite (name_extension _ _ _ G). cbn [snd]. destruct G as (_ & _ & D & _). rewrite (undot _ D). apply Proofs_Numeral.integer_iff. exact I. Qed.
Lemma channel_none dir stem ext : good_name stem ext -> (forall z, ~ integer ext z) ->
  parse_int (replace_text "." "" (snd (splitext (basename (file_name dir stem ext))))) = None.
Proof.
  intros G I. rewrite (name_extension _ _ _ G). cbn [snd]. destruct G as (_ & _ & D & _). rewrite (undot _ D).
  destruct (parse_int ext) eqn:E; [|reflexivity]. apply Proofs_Numeral.integer_iff in E. destruct (I _ E).
Qed.

(** ** Validation schema *)
Lemma maccor_schema_const dir path : maccor_schema dir path = path_join dir "schema-maccor-2170.yaml".
Proof.
  unfold maccor_schema, schema_of. f_equal. set (p := hd ""%string (str_split "_" (basename path))). unfold sget, project_schema. cbn [d_get].
  repeat (match goal with |- context [String.eqb p ?x] => destruct (String.eqb p x) end; [reflexivity|]). reflexivity.
Qed.
Lemma hd_plain p r : contains "_" p = false -> hd ""%string (str_split "_" (p ++ String "_" r)) = p.
Proof. intro H. rewrite str_split_char by exact H. reflexivity. Qed.
Lemma arbin_schema_project dir d p r : plain_project p -> slash_free r ->
  arbin_schema dir (d ++ "/" ++ p ++ "_" ++ r)%string = path_join dir (arbin_schema_file p).
Proof.
  intros [P S] R. unfold arbin_schema, schema_of. rewrite Proofs_Featurize.basename_last.
  2:{ change (char_free "/" (p ++ String "_" r)). apply char_free_app. split; [exact S|]. apply char_free_cons. split; [discriminate | exact R]. }
  change ("_" ++ r)%string with (String "_" r). rewrite hd_plain by exact P. f_equal. unfold arbin_schema_file, sget, project_schema. cbn [d_get existsb].
  repeat (match goal with |- context [String.eqb p ?x] => destruct (String.eqb_spec p x); [subst p; reflexivity|] end). reflexivity.
Qed.

(** ** Separators that cannot overlap themselves *)
Lemma first_head c s a b : char_free c s -> contains (String c s) a = false -> first_at a (String c s) b.
Proof.
  intros F N p q H. destruct (le_lt_dec (String.length a) (String.length p)) as [K|K]; [exact K|]. exfalso.
  symmetry in H. destruct (app_split_le _ _ _ _ H) as (e & -> & E); [lia|]. rewrite app_length_s in K.
  destruct (le_lt_dec (String.length (String c s)) (String.length e)) as [L|L].
  - destruct (app_split_le _ _ _ _ E) as (f & -> & _); [lia|]. assert (C : contains (String c s) (p ++ String c s ++ f) = true) by (apply contains_iff; eauto). congruence.
  - symmetry in E. destruct (app_split_le _ _ _ _ E) as (f & Ef & E'); [lia|].
    destruct e as [|x e]; [cbn in K; lia|]. cbn [append] in Ef. injection Ef as <- Es. rewrite Es in L, F. cbn [String.length] in L. rewrite app_length_s in L.
    destruct f as [|y f]; [cbn in L; lia|]. rewrite char_free_app in F. destruct F as [_ F]. apply char_free_cons in F. cbn [append] in E'. injection E' as Ex _. destruct F. congruence.
Qed.
Lemma first_tail c s a b : char_free c a -> char_free c s -> first_at a (s ++ String c "") b.
Proof.
  intros A S p q H. destruct (le_lt_dec (String.length a) (String.length p)) as [K|K]; [exact K|]. exfalso.
  rewrite !app_assoc_s in H. cbn [append] in H.
  assert (X : forall u v x y, (u ++ String c v = x ++ String c y)%string -> char_free c u -> (String.length u <= String.length x)%nat).
  { clear. induction u as [|d u IH]; intros v x y E F; [apply Nat.le_0_l|]. apply char_free_cons in F as [D F]. destruct x as [|z x]; cbn [append] in E; injection E as E1 E2; [congruence|].
    cbn. apply le_n_S. exact (IH _ _ _ E2 F). }
  pose proof (X (a ++ s)%string b (p ++ s)%string q) as Y. rewrite !app_assoc_s in Y. specialize (Y H).
  rewrite !app_length_s in Y. assert (C : char_free c (a ++ s)) by (apply char_free_app; auto). specialize (Y C). lia.
Qed.

(** ** Metadata of an Arbin file *)
Lemma renamed_name table k : renamed table (lower k) = result_name table k.
Proof.
  unfold renamed, result_name. induction table as [|[a b] r IH]; [reflexivity|]. unfold sget in *. cbn [d_get find fst]. rewrite String.eqb_sym.
  destruct (String.eqb a (lower k)); [reflexivity | exact IH].
Qed.
Lemma arbin_path stem : contains ".csv" stem = false -> arbin_metadata_path (stem ++ ".csv") None = (stem ++ "_Metadata.csv")%string.
Proof.
  intro N. unfold arbin_metadata_path, replace_text. replace (stem ++ ".csv")%string with (stem ++ ".csv" ++ "")%string by reflexivity.
  rewrite str_split_first; [reflexivity | discriminate|]. apply first_head; [reflexivity | exact N].
Qed.
Lemma arbin_path_other path : contains ".csv" path = false -> arbin_metadata_path path None = path.
Proof. intro N. unfold arbin_metadata_path, replace_text. rewrite str_split_none by exact N. reflexivity. Qed.
Lemma first_values_ok t : Forall (fun kc => snd kc <> []) t ->
  exists d, first_values t = Ok d /\ Forall2 (fun kc kv => fst kv = fst kc /\ exists r, snd kc = snd kv :: r) t d.
Proof.
  induction 1 as [|[k [|v r]] t H F IH]; [exists []; split; [reflexivity | apply Forall2_nil] | destruct H; reflexivity|].
  destruct IH as (d & E & G). exists ((k, v) :: d). unfold first_values in *. cbn [mapM snd fst bind]. rewrite E. split; [reflexivity|]. constructor; [|exact G]. cbn. eauto.
Qed.

Lemma arbin_metadata_found csv path given t : csv (arbin_metadata_path path given) = Some t -> t <> [] -> Forall (fun kc => snd kc <> []) t ->
  exists d, arbin_metadata csv path given = Ok (d, Some (arbin_metadata_path path given)) /\
    Forall2 (fun kc kv => fst kv = result_name arbin_metadata_fields (fst kc) /\ exists r, snd kc = snd kv :: r) t d.
Proof.
  intros E N F. unfold arbin_metadata. rewrite E.
  destruct (first_values_ok (named arbin_metadata_fields t)) as (d & D & G).
  { unfold named. apply Forall_forall. intros [k c] I. apply in_map_iff in I as ([k' c'] & [= <- <-] & I). rewrite Forall_forall in F. exact (F _ I). }
  rewrite D. cbn [bind]. exists d. split.
  - destruct t as [|x t]; [congruence|]. inversion G. reflexivity.
  - clear -G. revert d G. unfold named. induction t as [|[k c] t IH]; intros d G; inversion G; subst; constructor; [|apply IH; assumption].
    cbn [fst snd] in *. match goal with H : _ /\ _ |- _ => destruct H as [-> H]; split; [|exact H] end. apply renamed_name.
Qed.

(** ** Number columns *)
Section Columns.
  Context {V : Type} (missing : V -> bool) (cast : string -> list V -> result (list V)).
  Context (quantity : string -> string -> list (string * list V) -> result (list V)) (stamps : list V -> result (list V)).
  Notation maccor_table := (maccor_table cast quantity stamps).
  Notation arbin_table := (arbin_table missing cast stamps).
  Implicit Types (raw t out : list (string * list V)).

  Lemma cast_columns_ok types t : forall t', cast_columns cast types t = Ok t' ->
    Forall2 (fun a b => fst b = fst a /\ converted cast types (fst a) (snd a) (snd b)) t t'.
  Proof.
    induction t as [|[k c] t IH]; intros t' H; cbn [cast_columns] in H; [injection H as <-; constructor|].
    destruct (match sget types k with Some ty => cast ty c | None => Ok c end) eqn:E; [|discriminate]. cbn [bind] in H.
    destruct (cast_columns cast types t) eqn:E2; [|discriminate]. injection H as <-. constructor; [|exact (IH _ eq_refl)].
    cbn. split; [reflexivity|]. unfold converted. destruct (sget types k); [exact E | congruence].
  Qed.
  Lemma smem_lowered raw k : smem (lowered raw) k = true <-> exists k' c, In (k', c) raw /\ lower k' = k.
  Proof.
    unfold smem, d_mem. induction raw as [|[a b] raw IH]; cbn; [split; [discriminate | intros (?&?&[]&_)]|].
    destruct (String.eqb_spec k (lower a)).
    - split; [|reflexivity]. intros _. exists a, b. auto.
    - rewrite IH. split; intros (k' & c & I & E); exists k', c; [auto|]. destruct I as [[= -> ->] | I]; [congruence | auto].
  Qed.
  Lemma maccor_missing types columns raw k ty : In (k, ty) types -> (forall k' c, In (k', c) raw -> lower k' <> k) ->
    maccor_table types columns raw = Err KeyError.
  Proof.
    intros I N. unfold Model_RawFile.maccor_table, astype. 
    assert (F : forallb (fun ky => smem (lowered raw) (fst ky)) types = false).
    { destruct (forallb _ types) eqn:F; [|reflexivity]. rewrite forallb_forall in F. specialize (F _ I). cbn in F. apply smem_lowered in F as (k' & c & I' & E). destruct (N _ _ I' E). }
    rewrite F. reflexivity.
  Qed.
  Lemma sget_distinct {A} (d : list (string * A)) k v : NoDup (map fst d) -> In (k, v) d -> sget d k = Some v.
  Proof.
    unfold sget. induction d as [|[a b] d IH]; intros N I; [destruct I|]. cbn in *. inversion N; subst. destruct I as [[= -> ->] | I].
    - rewrite String.eqb_refl. reflexivity.
    - destruct (String.eqb_spec k a); [|auto]. subst a. destruct H1. apply in_map_iff. exists (k, v). auto.
  Qed.
  Lemma renamed_columns types columns raw t : cast_columns cast types (lowered raw) = Ok t -> NoDup (map (fun kc => result_name columns (fst kc)) raw) ->
    NoDup (map fst (rename columns t)) /\
    (forall k c, In (k, c) raw -> exists c', In (result_name columns k, c') (rename columns t) /\ converted cast types (lower k) c c') /\
    (forall n, In n (map fst (rename columns t)) -> exists k c, In (k, c) raw /\ n = result_name columns k).
  Proof.
    intros H N. apply cast_columns_ok in H.
    assert (G : map fst (rename columns t) = map (fun kc => result_name columns (fst kc)) raw).
    { clear N. revert t H. induction raw as [|[k c] raw IH]; intros t H; inversion H; subst; [reflexivity|]. destruct y as [k' c']. cbn in *. destruct H2 as [-> _]. rewrite renamed_name. f_equal. apply IH. assumption. }
    split; [rewrite G; exact N|]. split.
    - clear N G. revert t H. induction raw as [|[k c] raw IH]; intros t H k0 c0 I; [destruct I|]. inversion H; subst. destruct y as [k' c']. cbn in *. destruct H2 as [-> C].
      destruct I as [[= <- <-] | I].
      + exists c'. split; [|exact C]. left. rewrite renamed_name. reflexivity.
      + destruct (IH _ H4 _ _ I) as (c1 & I1 & C1). exists c1. auto.
    - intros n I. rewrite G in I. apply in_map_iff in I as ([k c] & <- & I). exists k, c. auto.
  Qed.

  Lemma smem_iff {A} (d : list (string * A)) k : smem d k = true <-> exists v, sget d k = Some v.
  Proof. unfold smem, d_mem, sget. destruct (d_get String.eqb d k); split; [eauto | reflexivity | discriminate | intros [v [=]]]. Qed.
  Lemma smem_in {A} (d : list (string * A)) k : smem d k = true <-> In k (map fst d).
  Proof.
    unfold smem, d_mem. induction d as [|[a b] d IH]; cbn; [split; [discriminate | intros []]|].
    destruct (String.eqb_spec k a); [split; [auto | reflexivity]|]. rewrite IH. split; [auto | intros [<- | I]; [congruence | exact I]].
  Qed.
  Ltac step H x E := match type of H with bind ?e _ = _ => destruct e as [x|] eqn:E; [|discriminate]; cbn [bind] in H end.
  Lemma maccor_ok types columns raw out : maccor_table types columns raw = Ok out ->
    NoDup (map (fun kc => result_name columns (fst kc)) raw) -> (forall k c, In (k, c) raw -> ~ In (result_name columns k) added) ->
    (forall k c, In (k, c) raw -> result_name columns k <> "_state"%string ->
       exists c', sget out (result_name columns k) = Some c' /\ converted cast types (lower k) c c') /\
    (forall k c, In (k, c) raw -> result_name columns k = "_state"%string ->
       exists c1 c', converted cast types (lower k) c c1 /\ cast "str" c1 = Ok c' /\ sget out "_state" = Some c') /\
    (forall q s n, In (q, s, n) summed -> exists t c, quantity q s t = Ok c /\ sget out n = Some c /\
       forall k c, In (k, c) raw -> sget t (result_name columns k) = sget out (result_name columns k)) /\
    (exists c d, sget out "date_time" = Some c /\ stamps c = Ok d /\ sget out "date_time_iso" = Some d) /\
    (forall n, In n (map fst out) <-> (exists k c, In (k, c) raw /\ n = result_name columns k) \/ In n added).
  Proof.
    intros H N A. unfold Model_RawFile.maccor_table, add_quantity in H. unfold astype in H.
    destruct (forallb _ types); [|discriminate]. step H t E.
    destruct (renamed_columns _ _ _ _ E N) as (ND & C & R). set (t0 := rename columns t) in *. clearbody t0. clear E t.
    destruct (sget t0 "_state") as [cs|] eqn:S; [|discriminate].
    destruct (cast "str" cs) as [cs'|] eqn:SC; [|discriminate]. cbn [bind] in H. set (t1 := sset t0 "_state" cs') in *.
    step H c2 Q2. step Q2 x2 Q2'. injection Q2 as Q2. step H c3 Q3. step Q3 x3 Q3'. injection Q3 as Q3.
    step H c4 Q4. step Q4 x4 Q4'. injection Q4 as Q4. step H c5 Q5. step Q5 x5 Q5'. injection Q5 as Q5.
    destruct (sget c5 "date_time") as [dt|] eqn:D; [|discriminate]. destruct (stamps dt) as [ds|] eqn:DS; [|discriminate]. cbn [bind] in H. injection H as <-.
    assert (NA : forall k c, In (k, c) raw -> forall n, In n added -> n <> result_name columns k) by (intros k c I n I' ->; exact (A _ _ I I')).
    assert (old : forall k c, In (k, c) raw -> sget t1 (result_name columns k) = sget (sset c5 "date_time_iso" ds) (result_name columns k)
       /\ sget c2 (result_name columns k) = sget t1 (result_name columns k) /\ sget c3 (result_name columns k) = sget t1 (result_name columns k)
       /\ sget c4 (result_name columns k) = sget t1 (result_name columns k)).
    { intros k c I. pose proof (NA _ _ I) as X. unfold added in X.
      assert (X1 := X "charge_capacity"%string ltac:(cbn; tauto)). assert (X2 := X "discharge_capacity"%string ltac:(cbn; tauto)).
      assert (X3 := X "charge_energy"%string ltac:(cbn; tauto)). assert (X4 := X "discharge_energy"%string ltac:(cbn; tauto)).
      assert (X5 := X "date_time_iso"%string ltac:(cbn; tauto)). clear X.
      assert (Y : forall (d : list (string * list V)) a v, a <> result_name columns k -> sget (sset d a v) (result_name columns k) = sget d (result_name columns k)).
      { intros d a v Z. rewrite sget_sset. destruct (String.eqb_spec (result_name columns k) a); [congruence | reflexivity]. }
      rewrite <- Q5, <- Q4, <- Q3, <- Q2. rewrite !Y by assumption. auto. }
    split; [|split; [|split; [|split]]].
    - intros k c I NS. destruct (C _ _ I) as (c' & I' & K). exists c'. split; [|exact K].
      destruct (old _ _ I) as (<- & _). unfold t1. rewrite sget_sset. destruct (String.eqb_spec (result_name columns k) "_state"); [congruence|]. apply sget_distinct; assumption.
    - intros k c I NS. destruct (C _ _ I) as (c' & I' & K). rewrite NS in I'. pose proof (sget_distinct _ _ _ ND I') as G. rewrite S in G. injection G as ->.
      exists c', cs'. split; [exact K|]. split; [exact SC|]. destruct (old _ _ I) as (O & _). rewrite NS in O. rewrite <- O. unfold t1. rewrite sget_sset. reflexivity.
    - intros q s n I. cbn [summed In] in I. destruct I as [[= <- <- <-] | [[= <- <- <-] | [[= <- <- <-] | [[= <- <- <-] | []]]]].
      + exists t1, x2. split; [exact Q2'|]. split; [|intros; apply (old _ _ H)].
        rewrite <- Q5, <- Q4, <- Q3, <- Q2. rewrite !sget_sset. reflexivity.
      + exists c2, x3. split; [exact Q3'|]. split; [|intros; destruct (old _ _ H) as (<- & ? & _); assumption].
        rewrite <- Q5, <- Q4, <- Q3. rewrite !sget_sset. reflexivity.
      + exists c3, x4. split; [exact Q4'|]. split; [|intros; destruct (old _ _ H) as (<- & _ & ? & _); assumption].
        rewrite <- Q5, <- Q4. rewrite !sget_sset. reflexivity.
      + exists c4, x5. split; [exact Q5'|]. split; [|intros; destruct (old _ _ H) as (<- & _ & _ & ?); assumption].
        rewrite <- Q5. rewrite !sget_sset. reflexivity.
    - exists dt, ds. rewrite !sget_sset. cbn. auto.
    - intro n. rewrite <- smem_in. rewrite <- Q5, <- Q4, <- Q3, <- Q2. unfold t1. rewrite !smem_sset. unfold added. cbn [In].
      assert (M : smem t0 n = true <-> exists k c, In (k, c) raw /\ n = result_name columns k).
      { rewrite smem_in. split; [apply R|]. intros (k & c & I & ->). destruct (C _ _ I) as (c' & I' & _). apply in_map_iff. exists (result_name columns k, c'). auto. }
      rewrite <- M. assert (ST : smem t0 "_state" = true) by (apply smem_iff; eauto).
      repeat (match goal with |- context [String.eqb n ?x] => destruct (String.eqb_spec n x) end; cbn [orb]).
      all: try (subst n; split; [intros _ | reflexivity]; rewrite ?ST; tauto).
      split; [tauto|]. intros [|[|[|[|[|[|]]]]]]; try congruence; tauto.
  Qed.

  Lemma cast_total types t : (forall ty c, exists c', cast ty c = Ok c') -> exists t', cast_columns cast types t = Ok t' /\ map fst t' = map fst t.
  Proof.
    intro K. induction t as [|[k c] t IH]; [exists []; auto|]. destruct IH as (t' & E & F). cbn [cast_columns]. destruct (sget types k) as [ty|].
    - destruct (K ty c) as (c' & ->). cbn [bind]. rewrite E. cbn [bind]. eexists. split; [reflexivity|]. cbn. congruence.
    - cbn [bind]. rewrite E. cbn [bind]. eexists. split; [reflexivity|]. cbn. congruence.
  Qed.
  Lemma renamed_present columns t k : smem t k = true -> smem (rename columns t) (renamed columns k) = true.
  Proof.
    rewrite !smem_in. unfold rename. intro I. rewrite map_map. cbn [fst]. rewrite <- (map_map fst (renamed columns)). apply in_map. exact I.
  Qed.
  Lemma maccor_total raw : (forall k ty, In (k, ty) maccor_types -> exists k' c, In (k', c) raw /\ lower k' = k) ->
    (forall ty c, exists c', cast ty c = Ok c') -> (forall q s t, exists c, quantity q s t = Ok c) -> (forall c, exists d, stamps c = Ok d) ->
    exists out, maccor_table maccor_types maccor_columns raw = Ok out.
  Proof.
    intros P K Q S. unfold Model_RawFile.maccor_table, astype, add_quantity.
    assert (M : forall k ty, In (k, ty) maccor_types -> smem (lowered raw) k = true) by (intros k ty I; apply smem_lowered; exact (P _ _ I)).
    assert (F : forallb (fun ky => smem (lowered raw) (fst ky)) maccor_types = true) by (apply forallb_forall; intros [k ty] I; exact (M _ _ I)).
    rewrite F. destruct (cast_total maccor_types (lowered raw) K) as (t & -> & N). cbn [bind].
    assert (M' : forall k ty, In (k, ty) maccor_types -> smem t k = true) by (intros k ty I; apply smem_in; rewrite N; apply smem_in; exact (M _ _ I)).
    pose proof (renamed_present maccor_columns _ _ (M' "state" "category" ltac:(cbn; tauto))%string) as M1. change (renamed maccor_columns "state") with "_state"%string in M1.
    pose proof (renamed_present maccor_columns _ _ (M' "dpt time" "str" ltac:(cbn; tauto))%string) as M2. change (renamed maccor_columns "dpt time") with "date_time"%string in M2.
    apply smem_iff in M1 as (c & ->). destruct (K "str"%string c) as (c1 & ->). cbn [bind].
    repeat match goal with |- context [quantity ?a ?b ?c] => let x := fresh "q" in destruct (Q a b c) as (x & ->); cbn [bind] end.
    match goal with |- context [sget ?t "date_time"] => assert (G : exists c, sget t "date_time" = Some c) by (apply smem_iff; rewrite !smem_sset, M2, !orb_true_r; reflexivity) end.
    destruct G as (d & ->). destruct (S d) as (e & ->). cbn [bind]. eauto.
  Qed.
  Lemma arbin_no_date types columns raw : (forall k c, In (k, c) raw -> result_name columns k <> "date_time"%string) ->
    (forall ty c, exists c', cast ty c = Ok c') -> arbin_table types columns raw = Err KeyError.
  Proof.
    intros N K. unfold Model_RawFile.arbin_table, cast_if_complete.
    assert (G : exists t, mapM (fun kc => match sget types (fst kc) with Some ty => if existsb missing (snd kc) then Ok kc else let! c := cast ty (snd kc) in Ok (fst kc, c) | None => Ok kc end) (lowered raw) = Ok t
       /\ map fst t = map fst (lowered raw)).
    { clear N. induction (lowered raw) as [|[k c] r IH]; [exists []; auto|]. destruct IH as (t & E & F). cbn [mapM fst snd].
      destruct (sget types k); [destruct (existsb missing c)|]; cbn [bind]; try (rewrite E; cbn [bind]; eexists; split; [reflexivity|]; cbn; congruence).
      destruct (K s c) as (c' & ->). cbn [bind]. rewrite E. cbn [bind]. eexists; split; [reflexivity|]; cbn; congruence. }
    destruct G as (t & -> & F). cbn [bind]. destruct (sget (rename columns t) "date_time") eqn:S; [|reflexivity]. exfalso.
    assert (M : In "date_time"%string (map fst (rename columns t))) by (apply smem_in, smem_iff; eauto).
    unfold rename in M. rewrite map_map in M. cbn [fst] in M. rewrite <- (map_map fst (renamed columns)), F, map_map in M. apply in_map_iff in M as ([k c] & E & I).
    unfold lowered in I. apply in_map_iff in I as ([k' c'] & [= <- <-] & I). cbn in E. rewrite renamed_name in E. exact (N _ _ I E).
  Qed.
  Lemma arbin_ok types columns raw out : arbin_table types columns raw = Ok out ->
    NoDup (map (fun kc => result_name columns (fst kc)) raw) -> (forall k c, In (k, c) raw -> result_name columns k <> "date_time_iso"%string) ->
    (forall k c, In (k, c) raw -> existsb missing c = false -> exists c', sget out (result_name columns k) = Some c' /\ converted cast types (lower k) c c') /\
    (forall k c, In (k, c) raw -> existsb missing c = true -> sget out (result_name columns k) = Some c) /\
    (exists c d, sget out "date_time" = Some c /\ stamps c = Ok d /\ sget out "date_time_iso" = Some d) /\
    (forall n, In n (map fst out) <-> (exists k c, In (k, c) raw /\ n = result_name columns k) \/ n = "date_time_iso"%string).
  Proof.
    intros H N A. unfold Model_RawFile.arbin_table, cast_if_complete in H. step H t E.
    assert (G : Forall2 (fun a b => fst b = result_name columns (fst a) /\ if existsb missing (snd a) then snd b = snd a else converted cast types (lower (fst a)) (snd a) (snd b)) raw (rename columns t)).
    { clear H N A. revert t E. induction raw as [|[k c] r IH]; intros t E; cbn [lowered map mapM fst snd] in E.
      - injection E as <-. apply Forall2_nil.
      - step E x X. change (map (fun kc => (lower (fst kc), snd kc)) r) with (lowered r) in E. step E t' E'. injection E as <-. cbn [rename map]. constructor; [|exact (IH _ eq_refl)].
        cbn [fst snd]. unfold converted. destruct (sget types (lower k)) as [ty|].
        + destruct (existsb missing c); [injection X as <-; split; [apply renamed_name | reflexivity]|]. step X c' X'. injection X as <-. split; [apply renamed_name | reflexivity].
        + injection X as <-. split; [apply renamed_name|]. destruct (existsb missing c); reflexivity. }
    clear E. set (t0 := rename columns t) in *. clearbody t0. clear t.
    assert (F : map fst t0 = map (fun kc => result_name columns (fst kc)) raw) by (clear -G; induction G as [|a b ? ? [X _] ? IH]; [reflexivity | cbn; congruence]).
    assert (ND : NoDup (map fst t0)) by (rewrite F; exact N).
    assert (L : forall k c, In (k, c) raw -> exists c', In (result_name columns k, c') t0 /\ if existsb missing c then c' = c else converted cast types (lower k) c c').
    { clear -G. induction G as [|[k c] [k' c'] ? ? [X Y] ? IH]; intros k0 c0 I; [destruct I|]. cbn in *. destruct I as [[= <- <-] | I].
      - exists c'. subst k'. auto.
      - destruct (IH _ _ I) as (c1 & ? & ?). eauto. }
    destruct (sget t0 "date_time") as [c|] eqn:S; [|discriminate]. destruct (stamps c) as [d|] eqn:D; [|discriminate]. cbn [bind] in H. injection H as <-.
    assert (O : forall k c, In (k, c) raw -> sget (sset t0 "date_time_iso" d) (result_name columns k) = sget t0 (result_name columns k)).
    { intros k c1 I. rewrite sget_sset. destruct (String.eqb_spec (result_name columns k) "date_time_iso"); [destruct (A _ _ I e) | reflexivity]. }
    split; [|split; [|split]].
    - intros k c1 I M. destruct (L _ _ I) as (c' & I' & X). rewrite M in X. exists c'. split; [|exact X]. rewrite (O _ _ I). apply sget_distinct; assumption.
    - intros k c1 I M. destruct (L _ _ I) as (c' & I' & X). rewrite M in X. subst c'. rewrite (O _ _ I). apply sget_distinct; assumption.
    - exists c, d. rewrite !sget_sset. cbn. auto.
    - intro n. rewrite <- smem_in, smem_sset. destruct (String.eqb_spec n "date_time_iso"); cbn [orb]; [tauto|]. rewrite smem_in, F. split.
      + intro I. left. apply in_map_iff in I as ([k c1] & <- & I). exists k, c1. auto.
      + intros [(k & c1 & I & ->) | E]; [|congruence]. apply in_map_iff. exists (k, c1). auto.
  Qed.
End Columns.

(** ** Text of a spectrum *)
Lemma split_labelled label a b : label <> ""%string -> (exists c s, label = String c s /\ char_free c s) -> labelled label a b ->
  str_split label (a ++ label ++ b) = [a; b].
Proof.
  intros N (c & s & -> & F) [A B]. rewrite str_split_first; [|exact N | apply first_head; assumption]. rewrite str_split_none by exact B. reflexivity.
Qed.
Lemma corrected_ok v v' : corrected v v' -> replace_text "Circut" "Circuit" v = v'.
Proof.
  unfold replace_text. induction 1 as [v N | x y y' N C IH]; [rewrite str_split_none by exact N; reflexivity|].
  rewrite str_split_first; [|discriminate | apply first_head; [reflexivity | exact N]]. rewrite <- IH.
  pose proof (str_split_nonempty "Circut" y). destruct (str_split "Circut" y); [congruence|]. reflexivity.
Qed.
Lemma words_blank b : forall s, all_blank b -> words (b ++ s) "" = words s "".
Proof.
  induction b as [|c b IH]; intros s H; [reflexivity|]. cbn [append words]. rewrite (proj2 (space_iff c)) by (apply H; left; reflexivity). cbn [String.eqb app].
  apply IH. intros d I. apply H. right. exact I.
Qed.
Lemma rev_string_app a : forall b c, rev_string (rev_string a b) c = rev_string b (a ++ c).
Proof. induction a as [|x a IH]; intros b c; [reflexivity|]. cbn [rev_string append]. rewrite IH. reflexivity. Qed.
Lemma words_letters w : forall r cur, blank_free w -> words (w ++ r) cur = words r (rev_string w cur).
Proof.
  induction w as [|c w IH]; intros r cur H; [reflexivity|]. cbn [append words rev_string].
  destruct (is_space c) eqn:S; [apply space_iff in S; destruct (H c (or_introl eq_refl) S)|]. apply IH. intros d I. apply H. right. exact I.
Qed.
Lemma words_ok s ws : has_words s ws -> words s "" = ws.
Proof.
  induction 1 as [s B | b w r ws B N F R W IH].
  - rewrite <- (app_nil_r_s s), words_blank by exact B. reflexivity.
  - rewrite words_blank by exact B. rewrite words_letters by exact F.
    assert (X : rev_string (rev_string w "") "" = w) by (rewrite rev_string_app; apply app_nil_r_s).
    assert (Y : String.eqb (rev_string w "") "" = false).
    { destruct (String.eqb_spec (rev_string w "") ""); [|reflexivity]. rewrite e in X. cbn in X. congruence. }
    destruct R as [-> | (c & r' & -> & C)].
    + cbn [words]. rewrite Y, X. cbn in IH. subst ws. reflexivity.
    + cbn [words]. rewrite (proj2 (space_iff c) C), Y, X. cbn [app]. f_equal. rewrite <- IH. cbn [words]. rewrite (proj2 (space_iff c) C). reflexivity.
Qed.
Lemma only_blanks_same l : negb (only_blanks l) = shown_line l.
Proof. unfold shown_line. induction l as [|c l IH]; [reflexivity|]. cbn. rewrite negb_andb, IH. reflexivity. Qed.
Lemma rows_ok rs : forall ls, Forall2 line_as_read rs ls -> Forall one_line rs -> eis_rows (join (String nl "") ls) = map cells_of (filter shown_line rs).
Proof.
  intros ls H F. unfold eis_rows. rewrite (filter_ext _ shown_line) by apply only_blanks_same. fold cells_of. change (str_split (String (ascii_of_nat 9) "")) with cells_of. f_equal.
  assert (A : forall r l b, one_line r -> line_as_read r l -> filter shown_line (str_split (String nl "") (l ++ String nl b)) = filter shown_line [r] ++ filter shown_line (str_split (String nl "") b)).
  { intros r l b LF [-> | ->]; [|rewrite app_assoc_s; change (eol ++ String nl b)%string with (String nl ("" ++ String nl b))]; rewrite str_split_char by exact LF; [|rewrite str_split_char by reflexivity]; cbn [filter]; destruct (shown_line r); reflexivity. }
  assert (B : forall r l, one_line r -> line_as_read r l -> filter shown_line (str_split (String nl "") l) = filter shown_line [r]).
  { intros r l LF [-> | ->]; [rewrite str_split_none by exact LF; reflexivity|]. change eol with (String nl ""). rewrite str_split_char by exact LF. cbn [str_split]. cbn [filter]. destruct (shown_line r); reflexivity. }
  induction H as [|r l rs ls H1 H2 IH]; [reflexivity|]. inversion F; subst. destruct ls as [|l' ls].
  - inversion H2; subst. cbn [join]. apply B; assumption.
  - change (join (String nl "") (l :: l' :: ls)) with (l ++ String nl (join (String nl "") (l' :: ls)))%string. rewrite (A r) by assumption. rewrite IH by assumption.
    cbn [filter]. destruct (shown_line r); reflexivity.
Qed.
Lemma comma_two n : (0 <= n < 100)%Z -> char_free "," (two n) /\ char_free "S" (two n).
Proof.
  intro B. assert (K : negb (contains "," (two n)) && negb (contains "S" (two n)) = true).
  { apply (bounded (fun n => negb (contains "," (two n)) && negb (contains "S" (two n))) 100); [vm_compute; reflexivity | exact B]. }
  apply andb_true_iff in K as [K1 K2]. apply negb_true_iff in K1, K2. split; assumption.
Qed.
Lemma comma_four n : (0 <= n < 10000)%Z -> char_free "," (four n) /\ char_free ":" (four n) /\ (forall t, lstrip (four n ++ t) = (four n ++ t)%string).
Proof.
  intro B. assert (B1 : (0 <= n / 100 < 100)%Z) by (Z.to_euclidean_division_equations; lia). assert (B2 : (0 <= n mod 100 < 100)%Z) by (Z.to_euclidean_division_equations; lia).
  unfold four. split; [|split].
  - apply char_free_app. split; apply comma_two; assumption.
  - apply char_free_app. split; rewrite two_digits; apply free_digits; try apply two_is_digits; try assumption; cbn; auto.
  - intro t. rewrite app_assoc_s. apply lstrip_two. exact B1.
Qed.
Lemma short_ok n : (1 <= n <= 31)%Z -> day_field (short n) = Some n /\ char_free "," (short n) /\ char_free ":" (short n) /\ lstrip (short n) = short n.
Proof.
  intro B. assert (K : (match day_field (short n) with Some k => (k =? n)%Z | None => (n <? 1)%Z || (31 <? n)%Z end)
      && negb (contains "," (short n)) && negb (contains ":" (short n)) && String.eqb (lstrip (short n)) (short n) = true).
  { apply (bounded (fun n => (match day_field (short n) with Some k => (k =? n)%Z | None => (n <? 1)%Z || (31 <? n)%Z end)
      && negb (contains "," (short n)) && negb (contains ":" (short n)) && String.eqb (lstrip (short n)) (short n)) 32); [vm_compute; reflexivity | lia]. }
  apply andb_true_iff in K as [K K4]. apply andb_true_iff in K as [K K3]. apply andb_true_iff in K as [K1 K2].
  apply negb_true_iff in K2, K3. apply String.eqb_eq in K4. split; [|auto].
  destruct (day_field (short n)); [apply Z.eqb_eq in K1; subst; reflexivity|]. apply orb_true_iff in K1 as [K1 | K1]; apply Z.ltb_lt in K1; lia.
Qed.
Lemma month_ok m t : (1 <= m <= 12)%Z -> position month_names (lower (month_name m)) 1 = Some m /\ word (month_name m ++ String " " t) = (month_name m, String " " t)
  /\ lstrip (month_name m ++ t) = (month_name m ++ t)%string /\ char_free "," (month_name m) /\ char_free ":" (month_name m).
Proof.
  intro B. assert (C : (m = 1 \/ m = 2 \/ m = 3 \/ m = 4 \/ m = 5 \/ m = 6 \/ m = 7 \/ m = 8 \/ m = 9 \/ m = 10 \/ m = 11 \/ m = 12)%Z) by lia.
  repeat (destruct C as [-> | C]; [repeat split; reflexivity|]). subst m. repeat split; reflexivity.
Qed.
Lemma weekday_ok w : In w weekdays -> (exists k, position day_names (lower w) 1 = Some k) /\ char_free "," w /\ char_free ":" w.
Proof. intro I. cbn [In weekdays] in I. repeat (destruct I as [<- | I]; [split; [eexists; reflexivity | split; reflexivity]|]). destruct I. Qed.
Lemma year_only_ok y : (0 <= y < 10000)%Z -> year_only (four y) = Some y.
Proof.
  intro B. unfold year_only. rewrite <- (app_nil_r_s (four y)), four_digits, span_digits_text; [|apply four_is_digits; exact B | exact I].
  cbn [length Nat.eqb]. f_equal. unfold digits_val. cbn [fold_left]. Z.to_euclidean_division_equations. lia.
Qed.
Lemma strptime_eis_ok w st : In w weekdays -> proper st -> ss st = 0%Z -> strptime_eis (eis_date w st ++ "," ++ eis_time st) = Some st.
Proof.
  intros W (Y & M & D & H & N & _) S. pose proof (month_length_bounds (yr st) _ M) as L. destruct (weekday_ok _ W) as ((k & K) & W1 & _).
  destruct (short_ok (dy st) ltac:(lia)) as (D1 & D2 & _ & D4). destruct (comma_four (yr st) ltac:(lia)) as (Y1 & _ & Y3).
  unfold strptime_eis, eis_date, eis_time. rewrite !app_assoc_s. cbn [append].
  rewrite str_split_char by exact W1.
  replace (String " " (month_name (mo st) ++ String " " (short (dy st) ++ String "," (String " " (four (yr st) ++ String "," (two (hh st) ++ String ":" (two (mi st))))))))%string
    with ((String " " (month_name (mo st) ++ String " " (short (dy st)))) ++ String "," (String " " (four (yr st) ++ String "," (two (hh st) ++ String ":" (two (mi st))))))%string
    by (cbn [append]; rewrite !app_assoc_s; reflexivity).
  destruct (month_ok (mo st) (short (dy st)) M) as (M1 & M2 & _ & M4 & _).
  rewrite str_split_char.
  2:{ apply char_free_cons. split; [discriminate|]. apply char_free_app. split; [exact M4|]. apply char_free_cons. split; [discriminate | exact D2]. }
  change (String " " (four (yr st) ++ String "," (two (hh st) ++ String ":" (two (mi st)))))%string with (String " " (four (yr st)) ++ String "," (two (hh st) ++ String ":" (two (mi st))))%string.
  rewrite str_split_char by (apply char_free_cons; split; [discriminate | exact Y1]).
  rewrite str_split_none.
  2:{ change (char_free "," (two (hh st) ++ String ":" (two (mi st)))). apply char_free_app. split; [apply comma_two; lia|]. apply char_free_cons. split; [discriminate | apply comma_two; lia]. }
  rewrite K. unfold blanks at 1 2. change (is_space " ") with true. cbn iota.
  destruct (month_ok (mo st) (String " " (short (dy st))) M) as (_ & _ & M3 & _). rewrite M3.
  rewrite <- (app_nil_r_s (four (yr st))), Y3, app_nil_r_s.
  rewrite str_split_char by (rewrite two_digits; apply free_digits; [apply two_is_digits; lia | cbn; auto]).
  rewrite str_split_none by (rewrite two_digits; apply free_digits; [apply two_is_digits; lia | cbn; auto]).
  rewrite M2, M1. cbn [blanks]. change (is_space " ") with true. cbn iota. rewrite D4, year_only_ok by lia. rewrite !field_two by lia. rewrite D1. rewrite dim_same by exact M.
  destruct (Z.leb_spec 1 (yr st)), (Z.leb_spec (dy st) (month_length (yr st) (mo st))); try lia. cbn [andb]. destruct st; cbn in *; subst; reflexivity.
Qed.
Lemma local_same st : proper st -> isoformat_local st = local_text st.
Proof.
  intros (Y & M & D & H & N & S). pose proof (month_length_bounds (yr st) _ M). unfold isoformat_local, local_text.
  rewrite padded_four by lia. rewrite !padded_two by lia. reflexivity.
Qed.
Lemma blank_no c s : all_blank s -> ~ blank_char c -> char_free c s.
Proof.
  intros A N. induction s as [|d s IH]; [reflexivity|]. apply char_free_cons. split; [intros ->; apply N, A; left; reflexivity|].
  apply IH. intros x I. apply A. right. exact I.
Qed.
Lemma start_split d u w st : In w weekdays -> proper st -> holds d (eis_date w st) -> holds u (eis_time st) ->
  str_split "Start Time:" (d ++ "Start Time:" ++ u) = [d; u].
Proof.
  intros W (Y & M & D & H & N & _) (_ & a & b & A & B & ->) (_ & a' & b' & A' & B' & ->).
  pose proof (month_length_bounds (yr st) _ M) as L. destruct (weekday_ok _ W) as (_ & _ & W2).
  destruct (short_ok (dy st) ltac:(lia)) as (_ & _ & D3 & _). destruct (comma_four (yr st) ltac:(lia)) as (_ & Y2 & _). destruct (month_ok (mo st) "" M) as (_ & _ & _ & _ & M5).
  assert (NC : ~ blank_char ":") by (cbn; lia). assert (NS : ~ blank_char "S") by (cbn; lia).
  rewrite str_split_first; [|discriminate|].
  - f_equal. apply str_split_none.
    assert (F : char_free "S" (a' ++ eis_time st ++ b')).
    { unfold eis_time. rewrite !char_free_app, char_free_cons. repeat split; try (apply blank_no; assumption); try (apply comma_two; lia). discriminate. }
    destruct (contains "Start Time:" _) eqn:C; [|reflexivity]. apply contains_iff in C as (x & y & E). rewrite E in F. apply char_free_app in F as [_ F]. apply char_free_app in F as [F _]. discriminate F.
  - change "Start Time:"%string with ("Start Time" ++ String ":" "")%string. apply first_tail; [|reflexivity].
    unfold eis_date. rewrite !char_free_app. repeat split; try (apply blank_no; assumption); try assumption; reflexivity.
Qed.
Lemma eis_file_ok l0 a1 t1 v1 v1' method filename l4 l5 a6 t6 d u w st l7 l8 ws l9 rs ls :
  labelled "Frequency Sweep:" a1 t1 -> holds t1 v1 -> corrected v1 v1' ->
  labelled "Start Date:" a6 t6 -> holds t6 (d ++ "Start Time:" ++ u)%string -> holds d (eis_date w st) -> holds u (eis_time st) ->
  In w weekdays -> proper st -> ss st = 0%Z -> has_words l8 ws -> Forall one_line rs -> Forall2 line_as_read rs ls ->
  eis_from_file ([l0; a1 ++ "Frequency Sweep:" ++ t1; method; filename; l4; l5; a6 ++ "Start Date:" ++ t6; l7; l8; l9]%string ++ ls) =
    match filter shown_line rs with
    | [] => Err (OtherError "EmptyDataError")
    | rs' => Ok ({| em_sweep := v1'; em_method := method; em_filename := filename; em_start := local_text st; em_line8 := ws |}, map cells_of rs')
    end.
Proof.
  intros L1 H1 C1 L6 H6 Hd Hu W P S Hw F R. unfold eis_from_file, item.
  cbn [nth_error app]. cbn [bind].
  rewrite (split_labelled "Frequency Sweep:"); [|discriminate | do 2 eexists; split; [reflexivity | reflexivity] | exact L1].
  cbn [nth_error bind]. rewrite (split_labelled "Start Date:"); [| discriminate | | exact L6].
  2:{ do 2 eexists; split; reflexivity. }
  cbn [nth_error bind]. rewrite (strip_holds _ _ H6). rewrite (start_split d u w st) by assumption.
  rewrite (strip_holds _ _ Hd), (strip_holds _ _ Hu), strptime_eis_ok by assumption.
  cbn [skipn]. rewrite (rows_ok rs) by assumption. rewrite (strip_holds _ _ H1), (corrected_ok _ _ C1), (local_same _ P), (words_ok _ _ Hw).
  destruct (filter shown_line rs); reflexivity.
Qed.

(** ** Finding spectra *)
Lemma last_slash_none b : slash_free b -> last_slash b = (""%string, b).
Proof.
  induction b as [|c b IH]; intro F; [reflexivity|]. apply char_free_cons in F as [N F]. cbn [last_slash]. rewrite (IH F). cbn.
  destruct (Ascii.eqb_spec c "/"); [congruence | reflexivity].
Qed.
Lemma last_slash_app d b : slash_free b -> last_slash (d ++ String "/" b) = ((d ++ "/")%string, b).
Proof.
  intro F. induction d as [|c d IH]; cbn [append last_slash].
  - rewrite (last_slash_none _ F). reflexivity.
  - rewrite IH. destruct d; reflexivity.
Qed.
Lemma magic_free s : no_wildcard s -> has_magic s = false /\ char_free "[" s.
Proof.
  induction s as [|c s IH]; intro H; [split; reflexivity|]. destruct (H c (or_introl eq_refl)) as (A & B & C). destruct IH as [I1 I2]; [intros d I; apply H; right; exact I|].
  cbn [has_magic]. rewrite I1. unfold is_magic. split; [|apply char_free_cons; auto].
  destruct (Ascii.eqb_spec c "*"), (Ascii.eqb_spec c "?"), (Ascii.eqb_spec c "["); congruence || reflexivity.
Qed.
Lemma has_magic_app a b : has_magic (a ++ b) = has_magic a || has_magic b.
Proof. induction a as [|c a IH]; [reflexivity|]. cbn. rewrite IH. apply orb_assoc. Qed.
Lemma fnmatch_literal a p : no_wildcard a -> forall n, fnmatch (a ++ p) n = true <-> exists r, n = (a ++ r)%string /\ fnmatch p r = true.
Proof.
  induction a as [|c a IH]; intros H n; [cbn; split; [eauto | intros (r & -> & K); exact K]|].
  destruct (H c (or_introl eq_refl)) as (A & B & C). assert (H' : no_wildcard a) by (intros d I; apply H; right; exact I).
  cbn [append fnmatch]. destruct (Ascii.eqb_spec c "*"); [congruence|]. destruct n as [|d n]; [split; [discriminate | intros (r & [=] & _)]|].
  destruct (Ascii.eqb_spec c "?"); [congruence|]. cbn [orb]. rewrite andb_true_iff, (IH H').
  split; [intros [E (r & -> & K)]; apply Ascii.eqb_eq in E; subst; eauto | intros (r & [= -> ->] & K); split; [apply Ascii.eqb_refl | eauto]].
Qed.
Lemma fnmatch_star p n : fnmatch (String "*" p) n = true <-> exists x r, n = (x ++ r)%string /\ fnmatch p r = true.
Proof.
  cbn [fnmatch]. change (Ascii.eqb "*" "*") with true. cbv iota beta. induction n as [|c n IH].
  - rewrite orb_false_r. split; [intro K; exists ""%string, ""%string; auto | intros (x & r & E & K); destruct x, r; try discriminate; exact K].
  - lazy iota beta. rewrite orb_true_iff, IH. split.
    + intros [K | (x & r & -> & K)]; [exists ""%string, (String c n); auto | exists (String c x), r; auto].
    + intros (x & r & E & K). destruct x as [|d x]; [left; cbn in E; subst; exact K|]. cbn in E. injection E as -> ->. right. eauto.
Qed.
Lemma no_wildcard_app a b : no_wildcard (a ++ b) <-> no_wildcard a /\ no_wildcard b.
Proof.
  assert (L : list_ascii_of_string (a ++ b) = (list_ascii_of_string a ++ list_ascii_of_string b)%list) by (induction a as [|c a IH]; cbn; congruence).
  unfold no_wildcard. rewrite L. split; [intro H; split; intros c I; apply H, in_or_app; auto | intros [A B] c I; apply in_app_or in I as [I | I]; auto].
Qed.
Lemma pattern_of dir stem ext : dot_free ext -> eis_pattern (file_name dir stem ext) = (dir ++ String "/" (stem ++ String "." (String "*" (String "." ext))))%string.
Proof.
  intro D. unfold eis_pattern, rsplit_dot, file_name. replace (dir ++ "/" ++ stem ++ "." ++ ext)%string with ((dir ++ "/" ++ stem) ++ "." ++ ext)%string by (rewrite !app_assoc_s; reflexivity).
  rewrite Proofs_Featurize.last_dot_app by exact D. cbn [append join]. rewrite !app_assoc_s. reflexivity.
Qed.
Lemma glob_ok listing other dir stem ext : no_wildcard dir -> no_wildcard stem -> no_wildcard ext -> slash_free stem -> slash_free ext -> dot_free ext ->
  forall p, In p (glob listing other (eis_pattern (file_name dir stem ext))) <->
    exists n, In n (listing (dir ++ "/")%string) /\ spectrum_of stem ext n /\ p = (dir ++ "/" ++ n)%string.
Proof.
  intros W1 W2 W3 S1 S2 D p. rewrite (pattern_of _ _ _ D). unfold glob. rewrite last_slash_app.
  2:{ change (char_free "/" (stem ++ String "." (String "*" (String "." ext)))). rewrite char_free_app, !char_free_cons. repeat split; try assumption; discriminate. }
  rewrite has_magic_app, (proj1 (magic_free _ W1)). cbn [has_magic]. change (is_magic "/") with false. cbn [orb].
  assert (B : contains "[" (stem ++ String "." (String "*" (String "." ext))) = false).
  { change (char_free "[" (stem ++ String "." (String "*" (String "." ext)))). rewrite char_free_app, !char_free_cons. repeat split; try discriminate; apply magic_free; assumption. }
  rewrite B. rewrite has_magic_app. cbn [has_magic]. change (is_magic "*") with true. change (is_magic ".") with false. cbn [orb]. rewrite orb_true_r.
  assert (M : forall n, fnmatch (stem ++ String "." (String "*" (String "." ext))) n = true <-> spectrum_of stem ext n).
  { intro n. rewrite (fnmatch_literal _ _ W2). unfold spectrum_of. change (String "." (String "*" (String "." ext))) with ("." ++ String "*" (String "." ext))%string.
    assert (Wd : no_wildcard ".") by (intros c [<- | []]; repeat split; discriminate).
    assert (We : no_wildcard ("." ++ ext)) by (apply no_wildcard_app; auto).
    split.
    - intros (r & -> & K). apply (fnmatch_literal _ _ Wd) in K as (r' & -> & K). apply fnmatch_star in K as (x & r & -> & K).
      change (String "." ext) with ("." ++ ext)%string in K. rewrite <- (app_nil_r_s ("." ++ ext)) in K. apply (fnmatch_literal _ _ We) in K as (e & -> & K). cbn in K. apply String.eqb_eq in K. subst e.
      exists x. rewrite app_nil_r_s. reflexivity.
    - intros (mid & ->). eexists. split; [reflexivity|]. apply (fnmatch_literal _ _ Wd). eexists. split; [reflexivity|]. apply fnmatch_star. exists mid. eexists. split; [reflexivity|].
      change (String "." ext) with ("." ++ ext)%string. rewrite <- (app_nil_r_s ("." ++ ext)) at 1. apply (fnmatch_literal _ _ We). exists ""%string. rewrite app_nil_r_s. auto. }
  rewrite in_map_iff. split.
  - intros (n & <- & I). apply filter_In in I as [I K]. apply andb_true_iff in K as [_ K]. exists n. rewrite app_assoc_s. split; [exact I|]. split; [apply M; exact K | reflexivity].
  - intros (n & I & K & ->). exists n. rewrite app_assoc_s. split; [reflexivity|]. apply filter_In. split; [exact I|]. rewrite (proj2 (M n) K), andb_true_r.
    destruct K as (mid & ->). assert (P0 : forall s, prefix "" s = true) by (intros []; reflexivity).
    destruct stem as [|c stem]; cbn [append prefix]; [destruct (ascii_dec "." "."); [rewrite !P0; reflexivity | congruence]|].
    destruct (ascii_dec "." c); [rewrite !P0|]; reflexivity.
Qed.
Lemma glob_once listing other dir stem ext : no_wildcard dir -> no_wildcard stem -> no_wildcard ext -> slash_free stem -> slash_free ext -> dot_free ext ->
  NoDup (listing (dir ++ "/")%string) -> NoDup (glob listing other (eis_pattern (file_name dir stem ext))).
Proof.
  intros W1 W2 W3 S1 S2 D N. rewrite (pattern_of _ _ _ D). unfold glob. rewrite last_slash_app.
  2:{ change (char_free "/" (stem ++ String "." (String "*" (String "." ext)))). rewrite char_free_app, !char_free_cons. repeat split; try assumption; discriminate. }
  rewrite has_magic_app, (proj1 (magic_free _ W1)). cbn [has_magic]. change (is_magic "/") with false. cbn [orb].
  assert (B : contains "[" (stem ++ String "." (String "*" (String "." ext))) = false).
  { change (char_free "[" (stem ++ String "." (String "*" (String "." ext)))). rewrite char_free_app, !char_free_cons. repeat split; try discriminate; apply magic_free; assumption. }
  rewrite B. rewrite has_magic_app. cbn [has_magic]. change (is_magic "*") with true. change (is_magic ".") with false. cbn [orb]. rewrite orb_true_r.
  apply FinFun.Injective_map_NoDup; [|apply NoDup_filter; exact N]. intros x y E. clear -E. induction (dir ++ "/")%string; [exact E|]. cbn in E. injection E. exact IHs.
Qed.
Lemma load_eis_ok listing lines_of other raw runs paths : load_eis listing lines_of other raw [] = Ok (runs, paths) ->
  paths = glob listing other (eis_pattern raw) /\ Forall2 (fun p r => exists ls, lines_of p = Some ls /\ eis_from_file ls = Ok r) paths runs.
Proof.
  unfold load_eis. intro H. destruct (mapM (read_eis lines_of) (glob listing other (eis_pattern raw))) as [rs|] eqn:E; [|discriminate]. injection H as <- <-. split; [reflexivity|].
  revert rs E. induction (glob listing other (eis_pattern raw)) as [|p l IH]; intros rs E; cbn [mapM] in E; [injection E as <-; constructor|].
  destruct (read_eis lines_of p) eqn:R; [|discriminate]. cbn [bind] in E. destruct (mapM (read_eis lines_of) l); [|discriminate]. injection E as <-. constructor; [|auto].
  unfold read_eis in R. destruct (lines_of p); [eauto | discriminate].
Qed.

(** ** Loading again *)
Lemma check_many paths l k : Forall (fun kp => match snd kp with OnePath s => s = ""%string \/ prefix "/" s = true | _ => True end) paths ->
  In (k, ManyPaths l) paths -> l <> [] -> check_paths paths = Err TypeError.
Proof.
  intros F I N. induction F as [|[k' p] r H F IH]; [destruct I|]. cbn [check_paths]. destruct I as [[= -> ->] | I].
  - destruct l; [congruence | reflexivity].
  - destruct p as [|s|[|x m]]; cbn [bind]; [auto| |auto | reflexivity]. cbn in H. destruct H as [-> | ->]; [|rewrite orb_true_r]; cbn [String.eqb orb bind]; auto.
Qed.
Lemma check_one paths : Forall (fun kp => match snd kp with OnePath s => s = ""%string \/ prefix "/" s = true | ManyPaths l => l = [] | NoPath => True end) paths ->
  check_paths paths = Ok tt.
Proof.
  induction 1 as [|[k' p] r H F IH]; [reflexivity|]. cbn [check_paths]. destruct p as [|s|l]; cbn [bind snd] in *; [auto | | subst l; auto].
  destruct H as [-> | ->]; [|rewrite orb_true_r]; cbn [String.eqb orb bind]; auto.
Qed.
Lemma sset_forall {A} (P : string * A -> Prop) (d : list (string * A)) k v : Forall P d -> (forall k, P (k, v)) -> Forall P (sset d k v).
Proof. intros F H. unfold sset. induction F as [|[a b] d X F IH]; cbn; [constructor; auto|]. destruct (String.eqb k a); constructor; auto. Qed.
Lemma sset_keeps {A} (d : list (string * A)) k v a b : In (a, b) d -> a <> k -> In (a, b) (sset d k v).
Proof.
  unfold sset. induction d as [|[x y] d IH]; intros I N; [destruct I|]. cbn. destruct (String.eqb_spec k x); destruct I as [[= -> ->] | I]; cbn; auto. congruence.
Qed.
Lemma reload_fails filename paths l : prefix "/" filename = true ->
  Forall (fun kp => match snd kp with OnePath s => s = ""%string \/ prefix "/" s = true | _ => True end) paths ->
  In ("eis"%string, ManyPaths l) paths -> l <> [] -> reload_paths filename paths = Err TypeError.
Proof.
  intros A F I N. unfold reload_paths. rewrite (check_many _ l "eis"); [reflexivity | | apply sset_keeps; [exact I | discriminate] | exact N].
  apply sset_forall; [exact F|]. intro. cbn. auto.
Qed.
Lemma reload_works filename paths : prefix "/" filename = true ->
  Forall (fun kp => match snd kp with OnePath s => s = ""%string \/ prefix "/" s = true | ManyPaths l => l = [] | NoPath => True end) paths ->
  exists paths', reload_paths filename paths = Ok paths' /\ sget paths' "structured" = Some (OnePath filename) /\ forall k, k <> "structured"%string -> sget paths' k = sget paths k.
Proof.
  intros A F. unfold reload_paths. rewrite check_one by (apply sset_forall; [exact F | intro; cbn; auto]). eexists. split; [reflexivity|]. rewrite sget_sset. split; [reflexivity|].
  intros k N. rewrite sget_sset. destruct (String.eqb_spec k "structured"); [congruence | reflexivity].
Qed.

(** ** EIS objects *)
Lemma column_dict_distinct {V} index : forall c : list V, NoDup index -> length c = length index -> column_dict index c = combine index c.
Proof.
  intros c N L. unfold column_dict. assert (G : forall l (d : list (Z * V)), NoDup (map fst (d ++ l)) -> fold_left (fun d kv => d_set Z.eqb d (fst kv) (snd kv)) l d = d ++ l).
  { clear. induction l as [|[k v] l IH]; intros d N; [rewrite app_nil_r; reflexivity|]. cbn [fold_left fst snd]. 
    assert (E : d_set Z.eqb d k v = d ++ [(k, v)]).
    { rewrite map_app in N. apply NoDup_remove_2 in N. assert (X : ~ In k (map fst d)) by (intro; apply N, in_or_app; auto). clear N IH. induction d as [|[a b] d IH]; [reflexivity|]. cbn in *.
      destruct (Z.eqb_spec k a); [subst; tauto|]. rewrite IH by tauto. reflexivity. }
    rewrite E, IH; rewrite <- app_assoc; [reflexivity | exact N]. }
  rewrite (G (combine index c) []); [reflexivity|]. cbn [app]. assert (X : map fst (combine index c) = index); [|rewrite X; exact N].
  clear -L. revert c L. induction index as [|i index IH]; intros [|x c] L; try discriminate; [reflexivity|]. cbn. f_equal. apply IH. cbn in L. lia.
Qed.
Lemma map_fst_combine {A B} (a : list A) : forall b : list B, length a = length b -> map fst (combine a b) = a /\ map snd (combine a b) = b.
Proof. induction a as [|x a IH]; intros [|y b] L; try discriminate; [auto|]. cbn. destruct (IH b) as [E1 E2]; [cbn in L; lia|]. rewrite E1, E2. auto. Qed.
Lemma eis_round {V} (e : eis V) m : e_meta e = MetaTable m -> NoDup (et_index m) -> et_cols m <> [] -> Forall (fun kc => length (snd kc) = length (et_index m)) (et_cols m) ->
  exists d, eis_as_dict e = Ok d /\ et_cols (e_data (eis_from_dict d)) = et_cols (e_data e) /\ e_meta (eis_from_dict d) = MetaTable m.
Proof.
  intros E N NE F. unfold eis_as_dict. rewrite E. eexists. split; [reflexivity|]. split; [reflexivity|]. cbn [eis_from_dict e_meta ed_meta].
  destruct m as [ix cols]. cbn [et_index et_cols] in *. do 2 f_equal.
  - destruct cols as [|[k c] cols]; [congruence|]. cbn [map fst snd]. inversion F; subst. rewrite column_dict_distinct by assumption. apply map_fst_combine. cbn in H1. lia.
  - rewrite map_map. rewrite <- (map_id cols) at 2. apply map_ext_in. intros [k c] I. cbn [fst snd]. rewrite Forall_forall in F. specialize (F _ I). cbn in F. rewrite column_dict_distinct by assumption.
    f_equal. apply map_fst_combine. lia.
Qed.
Lemma eis_index {V} (d : edict V) : et_index (e_data (eis_from_dict d)) = map Z.of_nat (seq 0 (match ed_data d with [] => 0 | (_, c) :: _ => length c end)).
Proof. reflexivity. Qed.
Lemma load_eis_given listing lines_of other raw ps runs paths : ps <> [] -> load_eis listing lines_of other raw ps = Ok (runs, paths) ->
  paths = ps /\ Forall2 (fun p r => exists ls, lines_of p = Some ls /\ eis_from_file ls = Ok r) paths runs.
Proof.
  unfold load_eis. intros N H. destruct ps as [|p0 ps]; [congruence|]. destruct (mapM (read_eis lines_of) (p0 :: ps)) as [rs|] eqn:E; [|discriminate]. injection H as <- <-. split; [reflexivity|].
  revert rs E. clear N. induction (p0 :: ps) as [|p l IH]; intros rs E; cbn [mapM] in E; [injection E as <-; constructor|].
  destruct (read_eis lines_of p) eqn:R; [|discriminate]. cbn [bind] in E. destruct (mapM (read_eis lines_of) l); [|discriminate]. injection E as <-. constructor; [|auto].
  unfold read_eis in R. destruct (lines_of p); [eauto | discriminate].
Qed.
Lemma eis_short lines : (length lines <= 10)%nat -> exists e, eis_from_file lines = Err e.
Proof.
  intro L. assert (S : skipn 10 lines = []) by (apply skipn_all2; exact L). unfold eis_from_file. rewrite S. change (eis_rows (join (String nl "") [])) with (@nil (list string)).
  unfold item.
  repeat match goal with
  | |- exists e, Err _ = Err e => eexists; reflexivity
  | |- context [bind (match ?x with Some _ => _ | None => _ end) _] => destruct x; cbn [bind]
  | |- context [match str_split "Start Time:" ?y with _ => _ end] => destruct (str_split "Start Time:" y) as [|? [|? [|? ?]]]
  | |- context [match strptime_eis ?y with _ => _ end] => destruct (strptime_eis y)
  end.
Qed.
