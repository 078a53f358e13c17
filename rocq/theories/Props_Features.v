(** Featurizers and the feature matrix (C46, C47). *)
From Coq Require Import Permutation.
From Verif Require Import Py Num Model_Features Spec_Features Proofs_Strings Proofs_Diagnostic Proofs_Datapath Proofs_Frames Proofs_Features.

Section Whole.
  Context {val : Type} (show : val -> string) (hash : string -> string).
  Notation featurizer := (featurizer val).
  Notation matrix_of := (matrix_of val show hash).
  Notation heading := (heading show hash).

  Lemma matrix_facts l m : Forall tidy l -> Forall (plain show hash) l -> matrix_of l = Ok (Some m) ->
    exists rows, Forall2 (gives show hash) l rows /\ ForallOrdPairs (fun f g => ~ clash show hash f g) l /\
      map fst (m_rows m) = uniq_s (map fst rows) /\ NoDup (m_columns m) /\ Forall (fun r => length (snd r) = length (m_columns m)) (m_rows m) /\
      (forall h, In h (m_columns m) <-> exists f c v, In f l /\ has_feature f c v /\ h = heading f c) /\
      forall file h, In file (map fst rows) -> In h (m_columns m) ->
        exists r, sget (map sorted_row (by_file rows)) file = Some r /\ NoDup (map fst r) /\ entry m file h = Some (value_in (file, r) h) /\
          forall v, In (h, v) r <-> exists f c, In f l /\ file_of f file /\ has_feature f c v /\ h = heading f c.
  Proof.
    intros T P. unfold Model_Features.matrix_of. destruct l as [|f0 l0]; [discriminate|]. set (l := f0 :: l0) in *.
    destruct (collect val show hash l []) as [rows|] eqn:C; cbn [bind]; [|discriminate].
    destruct (concat_rows _) as [m'|] eqn:CR; cbn [bind]; [|discriminate]. intros [= ->].
    apply collect_iff in C. destruct C as (F & AP & _). exists rows.
    assert (NC : ForallOrdPairs (fun f g => ~ clash show hash f g) l) by (revert AP; apply fop_impl; intros; apply apart_no_clash; assumption).
    assert (ND : Forall (fun r => NoDup (map fst (snd r))) rows).
    { rewrite Forall_forall in *. intros r R. destruct (f2_in_r _ _ _ _ F R) as (f & Fl & G). apply (heading_nodup show hash f r (T f Fl) (P f Fl) G). }
    pose proof (by_file_nodup _ ND (rows_apart show hash _ _ T P F NC)) as BN.
    assert (SN : Forall (fun r => NoDup (map fst (snd r))) (map sorted_row (by_file rows))).
    { rewrite Forall_forall in *. intros r R. apply in_map_iff in R. destruct R as (x & <- & X). apply sorted_nodup, BN, X. }
    destruct (concat_ok _ _ SN CR) as (LB & CN & LEN & CI & EN).
    split; [exact F|]. split; [exact NC|]. split; [|split; [exact CN|split; [exact LEN|split]]].
    - rewrite LB, map_map. cbn. unfold by_file. rewrite map_map. cbn. apply map_id.
    - intro h. rewrite CI. rewrite Forall_forall in T. split.
      + intros (r & R & H). apply in_map_iff in R. destruct R as (x & <- & X). apply in_map_iff in H. destruct H as ([h' v] & E & H). cbn in E. subst h'.
        apply (proj1 (sorted_in _ _)) in H. apply in_map_iff in X. destruct X as (file & <- & X). cbn [snd] in H. apply in_flat_map in H. destruct H as (r & R & H).
        apply filter_In in R. destruct R as [R _]. destruct (f2_in_r _ _ _ _ F R) as (f & Fl & G).
        apply (gives_in _ _ _ _ _ _ (T f Fl) G) in H. destruct H as (c & HF & ->). exists f, c, v. auto.
      + intros (f & c & v & Fl & HF & ->). destruct (f2_in_l _ _ _ _ F Fl) as (r & R & G).
        pose proof (proj2 (gives_in show hash f r (heading f c) v (T f Fl) G) (ex_intro _ c (conj HF eq_refl))) as I.
        exists (sorted_row (fst r, flat_map snd (filter (fun s => String.eqb (fst r) (fst s)) rows))). split.
        * apply in_map_iff. eexists. split; [reflexivity|]. apply in_map_iff. exists (fst r). split; [reflexivity|]. apply uniq_in, in_map, R.
        * apply in_map_iff. exists (heading f c, v). split; [reflexivity|]. apply sorted_in. cbn [snd]. apply in_flat_map. exists r. split; [|exact I].
          apply filter_In. split; [exact R|apply String.eqb_refl].
    - intros file h FI H. pose proof (by_file_get rows file file FI eq_refl) as BG. pose proof (sorted_get _ _ _ BG) as SG. eexists. split; [exact SG|].
      assert (IN : In (file, snd (sorted_row (file, flat_map snd (filter (fun r => String.eqb file (fst r)) rows)))) (map sorted_row (by_file rows))).
      { apply in_map_iff. exists (file, flat_map snd (filter (fun r => String.eqb file (fst r)) rows)). split; [reflexivity|]. apply in_map_iff. exists file. split; [reflexivity|]. apply uniq_in, FI. }
      split; [rewrite Forall_forall in SN; exact (SN _ IN)|]. split; [apply EN; assumption|].
      intro v. rewrite sorted_in. cbn [snd]. rewrite in_flat_map. rewrite Forall_forall in T. split.
      + intros (r & R & I). apply filter_In in R. destruct R as [R E]. apply String.eqb_eq in E. destruct (f2_in_r _ _ _ _ F R) as (f & Fl & G).
        apply (gives_in _ _ _ _ _ _ (T f Fl) G) in I. destruct I as (c & HF & ->). exists f, c. rewrite E. split; [exact Fl|]. split; [apply (gives_file _ _ _ _ G)|auto].
      + intros (f & c & Fl & FO & HF & ->). destruct (f2_in_l _ _ _ _ F Fl) as (r & R & G).
        exists r. split; [|apply (gives_in _ _ _ _ _ _ (T f Fl) G); exists c; auto]. apply filter_In. split; [exact R|]. apply String.eqb_eq.
        pose proof (gives_file _ _ _ _ G) as GF. destruct GF as [GF _]. destruct FO as [FO _]. congruence.
  Qed.

  (** ** C47: one row per file *)
  Theorem C47_one_row_per_file l m : Forall tidy l -> Forall (plain show hash) l -> matrix_of l = Ok (Some m) ->
    NoDup (map fst (m_rows m)) /\ (forall file, In file (map fst (m_rows m)) <-> exists f, In f l /\ file_of f file) /\
    Forall (fun r => length (snd r) = length (m_columns m)) (m_rows m).
  Proof.
    intros T P H. destruct (matrix_facts l m T P H) as (rows & F & _ & LB & _ & LEN & _). rewrite LB. split; [apply uniq_nodup|]. split; [|exact LEN].
    intro file. rewrite uniq_in, in_map_iff. split.
    - intros (r & <- & R). destruct (f2_in_r _ _ _ _ F R) as (f & Fl & G). exists f. split; [exact Fl|apply (gives_file _ _ _ _ G)].
    - intros (f & Fl & FO). destruct (f2_in_l _ _ _ _ F Fl) as (r & R & G). exists r. split; [|exact R].
      pose proof (gives_file _ _ _ _ G) as [GF _]. destruct FO as [FO _]. congruence.
  Qed.
  (** One column for each feature of each kind of featurizer. *)
  Theorem C47_columns l m : Forall tidy l -> Forall (plain show hash) l -> matrix_of l = Ok (Some m) ->
    NoDup (m_columns m) /\ forall h, In h (m_columns m) <-> exists f c v, In f l /\ has_feature f c v /\ h = heading f c.
  Proof. intros T P H. destruct (matrix_facts l m T P H) as (rows & F & _ & _ & CN & _ & CI & _). auto. Qed.
  (** Every feature stands in the row of its file under its heading. *)
  Theorem C47_features_in_place l m f file c v : Forall tidy l -> Forall (plain show hash) l -> matrix_of l = Ok (Some m) ->
    In f l -> file_of f file -> has_feature f c v -> entry m file (heading f c) = Some v.
  Proof.
    intros T P H Fl FO HF. destruct (matrix_facts l m T P H) as (rows & F & NC & LB & CN & LEN & CI & EN).
    assert (I : In (heading f c) (m_columns m)) by (apply CI; exists f, c, v; auto).
    assert (FI : In file (map fst rows)).
    { destruct (f2_in_l _ _ _ _ F Fl) as (r & R & G). apply in_map_iff. exists r. split; [|exact R]. pose proof (gives_file _ _ _ _ G) as [GF _]. destruct FO as [FO _]. congruence. }
    destruct (EN file _ FI I) as (r & _ & ND & E & V). rewrite E. unfold value_in. cbn [snd].
    assert (J : In (heading f c, v) r) by (apply V; exists f, c; auto). apply (sget_in _ _ _ ND) in J. rewrite J. reflexivity.
  Qed.
  (** No entry comes from another file: it is a feature of the row's file under that heading, or NaN
      where the file has none. *)
  Theorem C47_no_mixing l m file h x : Forall tidy l -> Forall (plain show hash) l -> matrix_of l = Ok (Some m) -> entry m file h = Some x ->
    (exists f c, In f l /\ file_of f file /\ has_feature f c x /\ h = heading f c) \/
    (x = NaN /\ In h (m_columns m) /\ (exists f, In f l /\ file_of f file) /\ forall f c v, In f l -> file_of f file -> has_feature f c v -> h <> heading f c).
  Proof.
    intros T P H EX. destruct (C47_one_row_per_file l m T P H) as (_ & FIL & _).
    destruct (matrix_facts l m T P H) as (rows & F & NC & LB & CN & LEN & CI & EN).
    assert (I : In h (m_columns m)). { unfold entry in EX. destruct (sget (m_rows m) file); [|discriminate]. apply position_in. destruct (position _ h _) as [i|]; [exists i; reflexivity|discriminate]. }
    assert (FI : In file (map fst (m_rows m))).
    { unfold entry in EX. destruct (sget (m_rows m) file) eqn:G; [|discriminate]. clear - G. induction (m_rows m) as [|[k v] q IH]; cbn in *; [discriminate|]. destruct (String.eqb_spec file k); [auto|right; apply IH, G]. }
    pose proof (proj1 (FIL file) FI) as FE. rewrite LB in FI. apply (proj1 (uniq_in _ _)) in FI. destruct (EN file h FI I) as (r & _ & ND & E & V). rewrite E in EX. injection EX as <-. unfold value_in. cbn [snd].
    destruct (sget r h) as [v|] eqn:G.
    - left. apply (sget_in _ _ _ ND) in G. apply V in G. exact G.
    - right. split; [reflexivity|]. split; [exact I|]. split; [exact FE|]. intros f c v Fl FO HF ->.
      assert (J : In (heading f c, v) r) by (apply V; exists f, c; auto). apply (sget_in _ _ _ ND) in J. congruence.
  Qed.
  (** The same feature of the same file twice is refused. *)
  Theorem C47_duplicates_rejected l i j f g : (i < j)%nat -> nth_error l i = Some f -> nth_error l j = Some g -> clash show hash f g ->
    exists e, matrix_of l = Err e.
  Proof.
    intros L I J C. unfold Model_Features.matrix_of. destruct l as [|f0 l0]; [destruct i; discriminate|].
    destruct (collect val show hash (f0 :: l0) []) as [rows|e] eqn:K; cbn [bind]; [|eauto]. exfalso. apply collect_iff in K. destruct K as (_ & AP & _).
    rewrite fop_nth in AP. exact (apart_no_clash show hash f g (AP i j f g L I J) C).
  Qed.
  (** The matrix is built exactly when every featurizer has one row of features of a known file and no
      feature occurs twice. *)
  Theorem C47_built_iff l : Forall tidy l -> Forall (plain show hash) l -> (forall f c v, In f l -> has_feature f c v -> no_colon c) -> l <> [] ->
    (exists m, matrix_of l = Ok (Some m)) <-> Forall ready l /\ no_clashes show hash l.
  Proof.
    intros T P CF NE. split.
    - intros [m H]. destruct (matrix_facts l m T P H) as (rows & F & NC & _). split.
      + rewrite Forall_forall in *. intros f Fl. destruct (f2_in_l _ _ _ _ F Fl) as (r & R & G). pose proof (gives_file _ _ _ _ G) as GF. destruct G as (t & file & FT & NR & _).
        split; [apply (tidy_one _ _ (T f Fl) FT NR)|]. eexists. exact GF.
      + intros i j f g L I J. rewrite fop_nth in NC. exact (NC i j f g L I J).
    - intros [R NC].
      assert (AP : ForallOrdPairs (apart show hash) l).
      { assert (X : ForallOrdPairs (fun f g => ~ clash show hash f g) l) by (apply fop_nth; exact NC). revert X. rewrite Forall_forall in *. apply fop_impl. intros f g Fl Gl N.
        destruct (R f Fl) as [OF EF]. destruct (R g Gl) as [OG EG]. apply no_clash_apart; auto; [intros c v; apply CF, Fl|intros c v; apply CF, Gl]. }
      assert (GV : exists rows, Forall2 (gives show hash) l rows).
      { clear - R. induction l as [|f l IH]; [exists []; constructor|]. inversion R as [|? ? R1 R2]; subst. destruct (IH R2) as [rows F]. destruct R1 as [(t & FT & NR & _) [file FO]].
        eexists (_ :: rows). constructor; [|exact F]. exists t, file. repeat split; try assumption; apply FO. }
      destruct GV as [rows F].
      assert (C : collect val show hash l [] = Ok rows) by (apply collect_iff; split; [exact F|split; [exact AP|intros ? ? ? ? []]]).
      unfold Model_Features.matrix_of. destruct l as [|f0 l0]; [congruence|]. rewrite C. cbn [bind].
      assert (NCO : ForallOrdPairs (fun f g => ~ clash show hash f g) (f0 :: l0)) by (apply fop_nth; exact NC).
      assert (ND : Forall (fun r => NoDup (map fst (snd r))) rows).
      { rewrite Forall_forall in *. intros r Rr. destruct (f2_in_r _ _ _ _ F Rr) as (f & Fl & G). apply (heading_nodup show hash f r (T f Fl) (P f Fl) G). }
      pose proof (by_file_nodup _ ND (rows_apart show hash _ _ T P F NCO)) as BN.
      destruct (concat_succeeds (map sorted_row (by_file rows))) as [m E].
      + inversion F; subst. discriminate.
      + rewrite Forall_forall in *. intros r Rr. apply in_map_iff in Rr. destruct Rr as (x & <- & X). apply sorted_nodup, BN, X.
      + rewrite E. exists m. reflexivity.
  Qed.
End Whole.

(** The order in which hyperparameters are given does not matter. *)
Theorem C47_hyperparameter_order {val} (show : val -> string) (hash : string -> string) (f g : featurizer val) file c v w :
  file_of f file -> file_of g file -> f_class _ f = f_class _ g -> NoDup (map fst (f_hyper _ f)) -> Permutation (f_hyper _ f) (f_hyper _ g) ->
  has_feature f c v -> has_feature g c w -> clash show hash f g /\ heading show hash f c = heading show hash g c.
Proof.
  intros FF FG CL ND P HF HG. assert (E : param_str val show (f_hyper val f) = param_str val show (f_hyper val g)) by (unfold param_str; rewrite (sort_unique fst _ _ ND P); reflexivity).
  split; [exists file, c, v, w; rewrite E; auto 10|]. unfold heading. rewrite CL, E. reflexivity.
Qed.

(** ** C46: hyperparameters *)
Section Construction.
  Context {val : Type} (json : val -> val) (defaults_of : string -> list (string * val)).
  Notation init := (init val defaults_of).
  Lemma covers_iff (h d : list (string * val)) : forallb (fun x => smem h (fst x)) d = true <-> covers h d.
  Proof.
    rewrite forallb_forall. unfold covers. split.
    - intros H k K. apply in_map_iff in K. destruct K as (x & <- & X). specialize (H x X). unfold smem, d_mem in H.
      destruct (d_get String.eqb h (fst x)) eqn:G; [|discriminate]. clear - G. induction h as [|[k w] h IH]; cbn in *; [discriminate|]. destruct (String.eqb_spec (fst x) k); [auto|right; apply IH, G].
    - intros H x X. specialize (H (fst x) (in_map fst _ _ X)). unfold smem, d_mem. clear - H. induction h as [|[k v] h IH]; cbn in *; [tauto|].
      destruct (String.eqb_spec (fst x) k) as [E|N]; [reflexivity|]. destruct H as [H|H]; [congruence|]. apply IH, H.
  Qed.
  Definition acceptable (dp : option datapath) : Prop := match dp with Some d => is_structured d = true | None => True end.
  (** Without hyperparameters, or with an empty dictionary, those of the class are used. *)
  Theorem C46_defaults cls dp given f : given = None \/ given = Some [] -> init cls dp given = Ok f -> f_hyper _ f = defaults_of cls.
  Proof. intros [->| ->]; unfold Model_Features.init; cbn [bind]; destruct dp as [dp|]; [destruct (is_structured dp)| |destruct (is_structured dp)|]; intros [= <-]; reflexivity. Qed.
  (** Otherwise construction succeeds exactly when all hyperparameters of the class are given, and uses the given ones. *)
  Theorem C46_complete_or_rejected cls dp h : h <> [] -> acceptable dp ->
    (covers h (defaults_of cls) -> exists f, init cls dp (Some h) = Ok f /\ f_hyper _ f = h /\ f_class _ f = cls /\ f_features _ f = None) /\
    (~ covers h (defaults_of cls) -> init cls dp (Some h) = Err BEEPFeaturizationError).
  Proof.
    intros NE A. unfold Model_Features.init. destruct h as [|x h]; [congruence|]. rewrite <- covers_iff.
    destruct (forallb _ _); split; intro H; try congruence; cbn [bind]; try reflexivity.
    destruct dp as [dp|]; cbn in A; [rewrite A|]; eexists; repeat split.
  Qed.
  (** A cell that has not been structured is refused; otherwise the featurizer carries its paths, metadata and identity. *)
  Theorem C46_structured_only cls dp given : is_structured dp = false -> exists e, init cls (Some dp) given = Err e.
  Proof. intro H. unfold Model_Features.init. destruct (match given with Some _ => _ | None => _ end); cbn [bind]; [rewrite H|]; eauto. Qed.
  Theorem C46_provenance cls dp given f : init cls (Some dp) given = Ok f ->
    f_paths _ f = dp_paths dp /\ f_metadata _ f = dp_metadata dp /\ f_id _ f = Some (dp_id dp).
  Proof.
    unfold Model_Features.init. destruct (match given with Some _ => _ | None => _ end); cbn [bind]; [|discriminate].
    destruct (is_structured dp); [|discriminate]. intros [= <-]. auto.
  Qed.

  Lemma init_hyper cls dp given f : init cls dp given = Ok f -> f_class _ f = cls /\ (f_hyper _ f = [] -> defaults_of cls = []) /\ covers (f_hyper _ f) (defaults_of cls).
  Proof.
    unfold Model_Features.init. destruct (match given with Some _ => _ | None => _ end) as [h|] eqn:G; cbn [bind]; [|discriminate]. intro H.
    assert (E : f_class _ f = cls /\ f_hyper _ f = h) by (destruct dp as [dp|]; [destruct (is_structured dp)|]; [|discriminate|]; injection H as <-; auto).
    destruct E as [-> ->]. split; [reflexivity|]. destruct given as [[|x g]|]; try (injection G as <-; split; [auto|intros k K; exact K]).
    destruct (forallb _ _) eqn:FB; [|discriminate]. injection G as <-. apply covers_iff in FB. split; [discriminate|exact FB].
  Qed.
  Lemma covers_map (h d : list (string * val)) : covers h d -> covers (map (fun kv => (fst kv, json (snd kv))) h) d.
  Proof. intros H k K. rewrite map_map. cbn. apply H, K. Qed.
  Lemma sset_all (l : list (string * list cell)) : forall acc, NoDup (map fst (acc ++ l)) -> fold_left (fun d c => sset d (fst c) (snd c)) l acc = acc ++ l.
  Proof.
    induction l as [|[k v] l IH]; intros acc ND; cbn; [symmetry; apply app_nil_r|].
    assert (E : sset acc k v = acc ++ [(k, v)]).
    { assert (N : ~ In k (map fst acc)). { rewrite map_app in ND. apply NoDup_app_iff in ND. destruct ND as (_ & _ & D). intro I. apply (D k I). left. reflexivity. }
      clear - N. induction acc as [|[k' v'] acc IH]; cbn; [reflexivity|]. cbn in N. destruct (String.eqb_spec k k') as [->|]; [tauto|]. f_equal. apply IH. tauto. }
    rewrite E, IH; rewrite <- app_assoc; [reflexivity|exact ND].
  Qed.
  (** A featurizer that was constructed and given features is written to a file and read back with its
      class, features, paths, metadata and identity, and its hyperparameters as JSON renders them. *)
  Theorem C46_reload cls dp given f0 t : init cls dp given = Ok f0 -> columns t <> [] -> NoDup (map fst (columns t)) -> Forall (fun c => length (snd c) = n_rows t) (columns t) ->
    let f := with_features val f0 t in
    exists d, as_dict val f = Ok d /\
    from_dict val defaults_of (through_json val json d) =
      Ok {| f_class := f_class _ f; f_hyper := map (fun kv => (fst kv, json (snd kv))) (f_hyper _ f); f_features := f_features _ f;
            f_paths := f_paths _ f; f_metadata := f_metadata _ f; f_id := f_id _ f |}.
  Proof.
    intros H NE ND LEN f. eexists. split; [reflexivity|]. apply init_hyper in H. destruct H as (CL & EM & CV). unfold from_dict, through_json. cbn [d_class d_hyper d_features d_paths d_metadata d_id].
    unfold f, with_features. cbn [f_class f_hyper f_features f_paths f_metadata f_id]. unfold to_dict_list. rewrite sset_all by exact ND. cbn [app].
    assert (TT : from_columns (columns t) = t). { destruct t as [n cs]. unfold from_columns. cbn in *. destruct cs as [|c cs]; [congruence|]. inversion LEN as [|? ? L _]; subst. f_equal. }
    rewrite TT. unfold Model_Features.init. rewrite CL. destruct (f_hyper val f0) as [|x h] eqn:FH.
    - cbn [map bind]. rewrite (EM eq_refl). reflexivity.
    - cbn [map]. match goal with |- context [forallb ?p ?l] => replace (forallb p l) with true end; [reflexivity|]. symmetry. apply covers_iff.
      exact (covers_map _ _ CV).
  Qed.
  (** Loading from a file adds the file's own path and keeps the other paths. *)
  Theorem C46_reload_path d filename f : from_json_file val defaults_of filename d = Ok f ->
    sget (f_paths _ f) "features" = Some filename /\ forall k, k <> "features"%string -> sget (f_paths _ f) k = sget (d_paths _ d) k.
  Proof.
    unfold from_json_file, from_dict. cbn [d_class d_hyper d_features d_paths d_metadata d_id]. destruct (init _ _ _); cbn [bind]; [|discriminate]. intros [= <-]. cbn [f_paths]. split.
    - rewrite sget_sset. rewrite String.eqb_refl. reflexivity.
    - intros k K. rewrite sget_sset. destruct (String.eqb_spec k "features"); [congruence|reflexivity].
  Qed.
  (** Features must exist before they can be written. *)
  Theorem C46_not_generated_not_written (f : featurizer val) : f_features _ f = None -> as_dict val f = Err BEEPFeaturizationError.
  Proof. intro H. unfold as_dict. rewrite H. reflexivity. Qed.
End Construction.

(** ** A matrix is built again from its saved featurizers *)
Section Reload.
  Context {val : Type} (show : val -> string) (json : val -> val) (hash : string -> string) (defaults_of : string -> list (string * val)).
  Notation featurizer := (featurizer val).
  Definition jsoned (f : featurizer) : featurizer :=
    {| f_class := f_class _ f; f_hyper := map (fun kv => (fst kv, json (snd kv))) (f_hyper _ f); f_features := f_features _ f;
       f_paths := f_paths _ f; f_metadata := f_metadata _ f; f_id := f_id _ f |}.
  (** Constructed, with features in named columns. *)
  Definition generated (f : featurizer) : Prop :=
    exists cls dp given f0 t, init val defaults_of cls dp given = Ok f0 /\ f = with_features val f0 t /\
      columns t <> [] /\ NoDup (map fst (columns t)) /\ Forall (fun c => length (snd c) = n_rows t) (columns t).
  Lemma sort_map (g : val -> val) (l : list (string * val)) : sort_s fst (map (fun kv => (fst kv, g (snd kv))) l) = map (fun kv => (fst kv, g (snd kv))) (sort_s fst l).
  Proof.
    induction l as [|x l IH]; [reflexivity|]. cbn [map sort_s]. rewrite IH. generalize (sort_s fst l). intro q.
    induction q as [|y q IHq]; cbn; [reflexivity|]. destruct (string_leb _ _); [reflexivity|]. cbn. f_equal. exact IHq.
  Qed.
  Lemma op_json f : (forall k v, In (k, v) (f_hyper _ f) -> show (json v) = show v) -> op_id val show hash (jsoned f) = op_id val show hash f.
  Proof.
    intro H. unfold op_id, jsoned. cbn [f_class f_hyper]. do 3 f_equal. unfold param_str. rewrite sort_map, map_map. f_equal. apply map_ext_in. intros [k v] I. cbn [fst snd].
    rewrite (H k v); [reflexivity|]. apply (Permutation_in _ (sort_perm fst (f_hyper val f)) I).
  Qed.
  Lemma collect_json l : (forall f k v, In f l -> In (k, v) (f_hyper _ f) -> show (json v) = show v) ->
    forall u, collect val show hash (map jsoned l) u = collect val show hash l u.
  Proof.
    induction l as [|f l IH]; intros H u; [reflexivity|]. cbn [map collect]. change (f_features val (jsoned f)) with (f_features val f). change (f_paths val (jsoned f)) with (f_paths val f).
    pose proof (op_json f (fun k v => H f k v (or_introl eq_refl))) as E.
    assert (E1 : forall file c, column_id val show hash file (jsoned f) c = column_id val show hash file f c) by (intros; unfold column_id; rewrite E; reflexivity).
    assert (E2 : forall c, consistent_name val show hash (jsoned f) c = consistent_name val show hash f c) by (intros; unfold consistent_name; rewrite E; reflexivity).
    destruct (f_features val f) as [t|]; [|reflexivity]. destruct (negb _); [reflexivity|]. destruct (sget (f_paths val f) "structured") as [[|a s]|]; try reflexivity.
    assert (M : map (fun c => column_id val show hash (String a s) (jsoned f) (fst c)) (columns t) = map (fun c => column_id val show hash (String a s) f (fst c)) (columns t))
      by (apply map_ext; intro; apply E1).
    rewrite M. destruct (existsb _ u); [reflexivity|]. rewrite IH by (intros g k v G; apply H; right; exact G).
    destruct (collect val show hash l _); cbn [bind]; [|reflexivity]. do 3 f_equal. clear - E2. induction (columns t) as [|c cs IH]; cbn; [reflexivity|]. rewrite E2, IH. reflexivity.
  Qed.
  (** Saved and loaded, the matrix is the same, when JSON keeps the printed form of the hyperparameters. *)
  Theorem C47_reload l m : Forall generated l -> (forall f k v, In f l -> In (k, v) (f_hyper _ f) -> show (json v) = show v) ->
    matrix_of val show hash l = Ok (Some m) -> exists l', reload_matrix val show json hash defaults_of l = Ok (l', Some m).
  Proof.
    intros G H M. exists (map jsoned l). unfold reload_matrix. rewrite M. cbn [bind].
    assert (D : exists ds, mapM (as_dict val) l = Ok ds /\ mapM (fun d => from_dict val defaults_of (through_json val json d)) ds = Ok (map jsoned l)).
    { clear M H. induction G as [|f l G1 G IH]; [exists []; auto|]. destruct IH as (ds & A & B). destruct G1 as (cls & dp & given & f0 & t & I & -> & NE & ND & LEN).
      destruct (C46_reload json defaults_of cls dp given f0 t I NE ND LEN) as (d & D1 & D2). exists (d :: ds). cbn [mapM map]. rewrite D1, A. cbn [bind]. split; [reflexivity|].
      rewrite D2. cbn [bind]. rewrite B. reflexivity. }
    destruct D as (ds & A & B). rewrite A. cbn [bind]. rewrite B. cbn [bind].
    assert (E : matrix_of val show hash (map jsoned l) = Ok (Some m)).
    { rewrite <- M. unfold matrix_of. destruct l as [|f l]; [reflexivity|]. cbn [map]. change (jsoned f :: map jsoned l) with (map jsoned (f :: l)). rewrite (collect_json _ H). reflexivity. }
    rewrite E. reflexivity.
  Qed.
End Reload.

(** ** Findings *)
Inductive toy_val := TInt (n : Z) | TStr (s : string) | TTuple (l : list Z) | TList (l : list Z).
Definition toy_show (v : toy_val) : string :=
  match v with
  | TInt n => if (n =? 1)%Z then "1" else "n"
  | TStr s => s | TTuple _ => "(1, 2)" | TList _ => "[1, 2]"
  end.
Definition toy_json (v : toy_val) : toy_val := match v with TTuple l => TList l | _ => v end.
Fixpoint toy_hash (s : string) : string :=
  match s with EmptyString => EmptyString | String c s => String (if Ascii.eqb c ":" then "="%char else c) (toy_hash s) end.
Definition toy_table (c : string) (x : Q) : table := {| n_rows := 1; columns := [(c, [Number x])] |}.
Definition toy_featurizer (cls : string) (h : list (string * toy_val)) (c : string) (x : Q) (file : string) : featurizer toy_val :=
  {| f_class := cls; f_hyper := h; f_features := Some (toy_table c x); f_paths := [("structured", file)]%string; f_metadata := []; f_id := None |}.
Notation toy_matrix := (matrix_of toy_val toy_show toy_hash).

(** Finding: hyperparameters are told apart only by the text that runs them together.  Two featurizers
    of a class with different hyperparameters, whose texts agree, are taken for the same and the matrix
    is refused — whatever the hash. *)
Theorem C47_hyperparameters_run_together_refuted hash :
  exists (h h' : list (string * toy_val)), map fst h = map fst h' /\ h <> h' /\
    (forall x y, exists e, matrix_of toy_val toy_show hash [toy_featurizer "T" h "f" x "file.json"; toy_featurizer "T" h' "f" y "file.json"] = Err e).
Proof.
  exists [("a", TStr "1-b:2"); ("b", TStr "3")]%string, [("a", TStr "1"); ("b", TStr "2-b:3")]%string. split; [reflexivity|]. split; [discriminate|].
  intros x y. eapply (C47_duplicates_rejected toy_show hash _ 0 1); [lia|reflexivity|reflexivity|].
  exists "file.json"%string, "f"%string, (Number x), (Number y). repeat split; try discriminate.
  - eexists. split; [reflexivity|]. left. reflexivity.
  - eexists. split; [reflexivity|]. left. reflexivity.
Qed.
(** Finding: a number and the text of that number are the same hyperparameter. *)
Theorem C47_number_and_text_refuted hash :
  exists e, matrix_of toy_val toy_show hash [toy_featurizer "T" [("a", TInt 1)]%string "f" 1 "file.json"; toy_featurizer "T" [("a", TStr "1")]%string "f" 2 "file.json"] = Err e.
Proof.
  eapply (C47_duplicates_rejected toy_show hash _ 0 1); [lia|reflexivity|reflexivity|].
  exists "file.json"%string, "f"%string, (Number 1), (Number 2). repeat split; try discriminate.
  - eexists. split; [reflexivity|]. left. reflexivity.
  - eexists. split; [reflexivity|]. left. reflexivity.
Qed.
(** Finding: tuples become lists in JSON and print differently, so a saved and loaded matrix has other
    headings; a model trained on the one does not find its features in the other. *)
Theorem C47_reload_renames_refuted :
  exists l l' m m', toy_matrix l = Ok (Some m) /\ reload_matrix toy_val toy_show toy_json toy_hash (fun _ => []) l = Ok (l', Some m') /\
    exists h, In h (m_columns m) /\ ~ In h (m_columns m').
Proof.
  exists [toy_featurizer "T" [("window", TTuple [1; 2]%Z)]%string "f" 1 "file.json"]. do 3 eexists.
  split; [vm_compute; reflexivity|]. split; [vm_compute; reflexivity|]. exists "f::T::window=(1, 2)"%string. cbn. split; [auto|]. intros [H|[]]. discriminate.
Qed.
(** Finding: a matrix without featurizers can be constructed but not written. *)
Theorem C47_empty_not_written_refuted : toy_matrix [] = Ok None /\ reload_matrix toy_val toy_show toy_json toy_hash (fun _ => []) [] = Err AttributeError.
Proof. split; reflexivity. Qed.
(** Finding: of features with the same name only the last survives saving. *)
Theorem C46_repeated_names_lost_refuted :
  exists (f f' : featurizer toy_val) t d, f_features _ f = Some t /\ length (columns t) = 2%nat /\ as_dict toy_val f = Ok d /\ from_dict toy_val (fun _ => []) d = Ok f' /\
    option_map (fun t => length (columns t)) (f_features _ f') = Some 1%nat.
Proof.
  exists {| f_class := "T"; f_hyper := []; f_features := Some {| n_rows := 1; columns := [("a", [Number 1]); ("a", [Number 2])]%string |}; f_paths := []; f_metadata := []; f_id := None |}.
  do 3 eexists. split; [reflexivity|]. split; [reflexivity|]. split; [reflexivity|]. split; reflexivity.
Qed.

(** ** Concrete cases *)
Definition toy_list : list (featurizer toy_val) :=
  [toy_featurizer "T" [("a"%string, TInt 1)] "x" 1 "one.json"; toy_featurizer "T" [("a"%string, TInt 1)] "x" 2 "two.json";
   toy_featurizer "T" [("a"%string, TInt 5)] "x" 3 "one.json"; toy_featurizer "U" [] "y" 4 "two.json"].
Definition toy_result : matrix :=
  {| m_columns := ["x::T::a=1"; "x::T::a=n"; "y::U::"]%string;
     m_rows := [("one.json"%string, [Number 1; Number 3; NaN]); ("two.json"%string, [Number 2; NaN; Number 4])] |}.
Example features_build : toy_matrix toy_list = Ok (Some toy_result).
Proof. vm_compute. reflexivity. Qed.
Lemma toy_tidy cls h c x file : tidy (toy_featurizer cls h c x file).
Proof. intros t [= <-]. split; [repeat constructor|]. cbn. constructor; [intros []|constructor]. Qed.
Example features_tidy : Forall tidy toy_list.
Proof. unfold toy_list. repeat (constructor; [apply toy_tidy|]). constructor. Qed.
Example features_plain : Forall (plain toy_show toy_hash) toy_list.
Proof. unfold toy_list. repeat (constructor; [split; vm_compute; reflexivity|]). constructor. Qed.
Example features_ready : Forall ready toy_list /\ no_clashes toy_show toy_hash toy_list.
Proof.
  apply (C47_built_iff toy_show toy_hash toy_list features_tidy features_plain).
  - intros f c v I (t & FT & J). unfold toy_list in I. cbn [In] in I.
    destruct I as [<-|[<-|[<-|[<-|[]]]]]; injection FT as <-; cbn in J; destruct J as [[= <- _]|[]]; reflexivity.
  - discriminate.
  - exists toy_result. apply features_build.
Qed.
Example features_generated : exists f, generated (fun _ => [("a"%string, TInt 7)]) f /\ f_hyper _ f = [("a"%string, TInt 7)] /\ exists m, toy_matrix [f] = Ok (Some m).
Proof.
  eexists. split; [|split].
  - exists "T"%string, (Some {| is_structured := true; dp_paths := [("structured", "one.json")]%string; dp_metadata := []; dp_id := "one" |}), None. do 2 eexists.
    split; [reflexivity|]. split; [reflexivity|]. instantiate (1 := toy_table "x" 1). split; [discriminate|]. split; [cbn; constructor; [intros []|constructor]|repeat constructor].
  - reflexivity.
  - eexists. vm_compute. reflexivity.
Qed.
Example features_cover : covers [("a"%string, TInt 2); ("b"%string, TInt 1)] [("b"%string, TInt 7)] /\ ~ covers [("a"%string, TInt 2)] [("b"%string, TInt 7)].
Proof. split; [intros k [<-|[]]; cbn; auto|]. intro H. destruct (H "b"%string (or_introl eq_refl)) as [E|[]]. discriminate. Qed.

Print Assumptions C46_defaults. Print Assumptions C46_complete_or_rejected. Print Assumptions C46_structured_only. Print Assumptions C46_provenance.
Print Assumptions C46_reload. Print Assumptions C46_reload_path. Print Assumptions C46_not_generated_not_written. Print Assumptions C46_repeated_names_lost_refuted.
Print Assumptions C47_one_row_per_file. Print Assumptions C47_columns. Print Assumptions C47_features_in_place. Print Assumptions C47_no_mixing.
Print Assumptions C47_duplicates_rejected. Print Assumptions C47_built_iff. Print Assumptions C47_reload.
Print Assumptions C47_hyperparameters_run_together_refuted. Print Assumptions C47_number_and_text_refuted. Print Assumptions C47_reload_renames_refuted. Print Assumptions C47_empty_not_written_refuted.
Print Assumptions C47_hyperparameter_order.
