(** The feature matrix. *)
From Coq Require Import Permutation.
From Verif Require Import Py Num Model_Features Spec_Features Proofs_Strings Proofs_Diagnostic Proofs_Frames.

(** ** Sorting and stacking rows with distinct names *)
Lemma filter_one {V} (l : list (string * V)) c v : NoDup (map fst l) -> In (c, v) l -> filter (fun x => String.eqb c (fst x)) l = [(c, v)].
Proof.
  induction l as [|[k w] l IH]; cbn; [tauto|]. intros ND [E|I].
  - injection E as -> ->. rewrite String.eqb_refl. f_equal. inversion ND as [|? ? N ND']; subst.
    clear - N. induction l as [|[k w] l IH]; cbn in *; [reflexivity|]. destruct (String.eqb_spec c k) as [->|]; [tauto|]. apply IH. tauto.
  - inversion ND as [|? ? N ND']; subst. destruct (String.eqb_spec c k) as [->|]; [|apply IH; assumption].
    exfalso. apply N. apply (in_map fst) in I. exact I.
Qed.
Lemma sorted_names (r : bind_row) : NoDup (map fst (snd r)) -> map fst (snd (sorted_row r)) = sort_s (fun c => c) (map fst (snd r)).
Proof.
  intro ND. unfold sorted_row. cbn [snd]. pose proof (sort_perm (fun c : string => c) (map fst (snd r))) as P.
  assert (A : forall x, In x (sort_s (fun c => c) (map fst (snd r))) -> In x (map fst (snd r))) by (intros x X; apply (Permutation_in _ P X)).
  revert A. generalize (sort_s (fun c : string => c) (map fst (snd r))). intros l. induction l as [|c l IH]; intro A; cbn; [reflexivity|].
  rewrite map_app, IH by (intros; apply A; right; assumption). specialize (A c (or_introl eq_refl)). apply in_map_iff in A. destruct A as ([k v] & <- & I).
  cbn [fst]. rewrite (filter_one _ _ _ ND I). reflexivity.
Qed.
Lemma sorted_in (r : bind_row) x : In x (snd (sorted_row r)) <-> In x (snd r).
Proof.
  unfold sorted_row. cbn [snd]. rewrite in_flat_map. split.
  - intros (c & _ & I). apply filter_In in I. tauto.
  - intro I. exists (fst x). split.
    + apply (Permutation_in _ (Permutation_sym (sort_perm _ _))). apply in_map. exact I.
    + apply filter_In. split; [exact I|apply String.eqb_refl].
Qed.
Lemma sorted_nodup (r : bind_row) : NoDup (map fst (snd r)) -> NoDup (map fst (snd (sorted_row r))).
Proof. intro ND. rewrite sorted_names by exact ND. apply (Permutation_NoDup (Permutation_sym (sort_perm _ _)) ND). Qed.

Definition value_in (r : bind_row) (c : string) : cell := match sget (snd r) c with Some v => v | None => NaN end.
Lemma rows_get (g : bind_row -> list cell) l file : sget (map (fun r => (fst r, g r)) l) file = option_map (fun x => g (file, x)) (sget l file).
Proof.
  induction l as [|[k v] l IH]; cbn; [reflexivity|]. destruct (String.eqb_spec file k) as [->|]; [reflexivity|]. exact IH.
Qed.
Lemma concat_ok l m : Forall (fun r => NoDup (map fst (snd r))) l -> concat_rows l = Ok m ->
  map fst (m_rows m) = map fst l /\ NoDup (m_columns m) /\ Forall (fun r => length (snd r) = length (m_columns m)) (m_rows m) /\
  (forall c, In c (m_columns m) <-> exists r, In r l /\ In c (map fst (snd r))) /\
  forall file r c, sget l file = Some r -> In c (m_columns m) -> entry m file c = Some (value_in (file, r) c).
Proof.
  intros ND. unfold concat_rows. destruct l as [|r0 l]; [discriminate|]. cbn [map].
  destruct (forallb (same_list (map fst (snd r0))) (map (fun r => map fst (snd r)) l)) eqn:S.
  - rewrite forallb_forall in S.
    assert (A : forall r, In r (r0 :: l) -> map fst (snd r) = map fst (snd r0)).
    { intros r [<-|I]; [reflexivity|]. specialize (S (map fst (snd r))). symmetry. apply same_list_iff, S. apply in_map_iff. exists r. auto. }
    intros [= <-]. cbn [m_columns m_rows]. split; [|split; [|split; [|split]]].
    + cbn. rewrite map_map. reflexivity.
    + inversion ND; assumption.
    + apply Forall_forall. intros x X. change ((fst r0, map snd (snd r0)) :: map (fun r => (fst r, map snd (snd r))) l) with (map (fun r : bind_row => (fst r, map snd (snd r))) (r0 :: l)) in X.
      apply in_map_iff in X. destruct X as (r & <- & R). cbn [snd]. rewrite map_length, <- (A r R), map_length. reflexivity.
    + intro c. split.
      * intro C. exists r0. split; [left; reflexivity|exact C].
      * intros (r & R & C). rewrite (A r R) in C. exact C.
    + intros file r c G C. unfold entry. cbn [m_rows m_columns]. rewrite (rows_get (fun r => map snd (snd r)) (r0 :: l)), G. cbn [option_map snd].
      apply position_in in C. destruct C as [i C]. rewrite C. unfold value_in. cbn [snd]. rewrite position_sget.
      assert (I : In (file, r) (r0 :: l)). { clear - G. induction (r0 :: l) as [|[k v] q IH]; cbn in *; [discriminate|]. destruct (String.eqb_spec file k) as [->|]; [injection G as ->; auto|auto]. }
      rewrite <- (A _ I) in C. cbn [snd] in C. rewrite C.
      destruct (nth_error (map snd r) i) eqn:N; [reflexivity|]. exfalso. apply nth_error_None in N. rewrite map_length in N.
      assert (L : (i < length (map fst r))%nat).
      { clear - C. revert i C. induction (map fst r) as [|x q IH]; intro i; cbn; [discriminate|]. destruct (String.eqb c x); [intros [= <-]; lia|].
        destruct (position String.eqb c q) as [j|]; cbn; [|discriminate]. intros [= <-]. specialize (IH j eq_refl). lia. }
      rewrite map_length in L. lia.
  - clear S. destruct (forallb all_distinct _); [|discriminate]. intros [= <-]. set (cols := uniq_s _). cbn [m_columns m_rows].
    assert (CI : forall c, In c cols <-> exists r, In r (r0 :: l) /\ In c (map fst (snd r))).
    { intro c. unfold cols. rewrite uniq_in. cbn [concat]. rewrite in_app_iff, in_concat. split.
      - intros [C|(x & X & C)]; [exists r0; split; [left; reflexivity|exact C]|]. apply in_map_iff in X. destruct X as (r & <- & R). exists r. split; [right; exact R|exact C].
      - intros (r & [<-|R] & C); [left; exact C|]. right. exists (map fst (snd r)). split; [apply in_map_iff; exists r; auto|exact C]. }
    split; [|split; [|split; [|split]]].
    + cbn. rewrite map_map. reflexivity.
    + apply uniq_nodup.
    + apply Forall_forall. intros x [<-|X]; [apply map_length|]. apply in_map_iff in X. destruct X as (r & <- & R). apply map_length.
    + exact CI.
    + intros file r c G C. unfold entry. cbn [m_rows m_columns].
      change ((fst r0, map (fun c => match sget (snd r0) c with Some v => v | None => NaN end) cols) :: map (fun r => (fst r, map (fun c => match sget (snd r) c with Some v => v | None => NaN end) cols)) l)
        with (map (fun r : bind_row => (fst r, map (value_in r) cols)) (r0 :: l)).
      rewrite (rows_get (fun r => map (value_in r) cols) (r0 :: l)), G. cbn [option_map]. apply position_in in C. destruct C as [i C]. rewrite C.
      exact (position_map _ _ _ _ C).
Qed.
Lemma concat_succeeds l : l <> [] -> Forall (fun r => NoDup (map fst (snd r))) l -> exists m, concat_rows l = Ok m.
Proof.
  intros N ND. unfold concat_rows. destruct l as [|r0 l]; [congruence|]. cbn [map]. destruct (forallb _ _); [eexists; reflexivity|].
  replace (forallb all_distinct _) with true; [eexists; reflexivity|]. symmetry. apply forallb_forall. intros x X.
  change (In x (map (fun r : bind_row => map fst (snd r)) (r0 :: l))) in X. apply in_map_iff in X. destruct X as (r & <- & R).
  apply all_distinct_iff. rewrite Forall_forall in ND. exact (ND r R).
Qed.

Section Features.
  Context {val : Type} (show : val -> string) (hash : string -> string).
  Notation featurizer := (featurizer val).
  Notation collect := (collect val show hash).
  Notation heading := (heading show hash).
  Notation clash := (clash show hash).

  (** Columns are as long as the table and named apart. *)
  Definition tidy (f : featurizer) : Prop :=
    forall t, f_features _ f = Some t -> Forall (fun c => length (snd c) = n_rows t) (columns t) /\ NoDup (map fst (columns t)).
  Definition ids (f : featurizer) : list string :=
    match f_features _ f, sget (f_paths _ f) "structured" with
    | Some t, Some file => map (fun c => column_id _ show hash file f (fst c)) (columns t)
    | _, _ => []
    end.
  Definition gives (f : featurizer) (r : bind_row) : Prop :=
    exists t file, f_features _ f = Some t /\ n_rows t = 1%nat /\ file_of f file /\
      r = (file, flat_map (fun c => map (pair (consistent_name _ show hash f (fst c))) (snd c)) (columns t)).
  Definition apart (f g : featurizer) : Prop := forall x, In x (ids f) -> ~ In x (ids g).

  Lemma collect_iff l : forall u rows, collect l u = Ok rows <->
    Forall2 gives l rows /\ ForallOrdPairs apart l /\ forall f x, In f l -> In x (ids f) -> ~ In x u.
  Proof.
    induction l as [|f l IH]; intros u rows; cbn [Model_Features.collect].
    { split; [intros [= <-]; repeat split; [constructor|constructor|intros ? ? []]|]. intros (F & _). inversion F. reflexivity. }
    split.
    - destruct (f_features val f) as [t|] eqn:FT; [|discriminate]. destruct (Nat.eqb_spec (n_rows t) 1) as [NR|]; [|discriminate]. cbn [negb].
      destruct (sget (f_paths val f) "structured") as [[|a s]|] eqn:FP; try discriminate.
      set (fname := String a s) in *. intro H. 
      destruct (existsb _ u) eqn:EX; [discriminate|]. destruct (collect l _) as [rest|] eqn:C; cbn [bind] in H; [|discriminate]. injection H as <-.
      apply IH in C. destruct C as (F & P & D).
      assert (I : ids f = map (fun c => column_id _ show hash fname f (fst c)) (columns t)) by (unfold ids; rewrite FT, FP; reflexivity).
      split; [|split].
      + constructor; [|exact F]. exists t, fname. repeat split; try assumption; discriminate.
      + constructor; [|exact P]. apply Forall_forall. intros g G x X Y. apply (D g x G Y). apply in_or_app. right. rewrite <- I. exact X.
      + intros g x [<-|G] X U; [|apply (D g x G X); apply in_or_app; left; exact U].
        assert (E : existsb (fun u => str_in u (map (fun c => column_id val show hash fname f (fst c)) (columns t))) u = true).
        { apply existsb_exists. exists x. split; [exact U|]. apply str_in_iff. rewrite <- I. exact X. }
        congruence.
    - intros (F & P & D). inversion F as [|? r ? rest G F']; subst. inversion P as [|? ? A P']; subst.
      destruct G as (t & file & FT & NR & [FP NE] & ->). rewrite FT, NR. cbn [Nat.eqb negb]. rewrite FP.
      assert (I : ids f = map (fun c => column_id _ show hash file f (fst c)) (columns t)) by (unfold ids; rewrite FT, FP; reflexivity).
      destruct file as [|a s]; [congruence|]. set (fname := String a s) in *.
      destruct (existsb _ u) eqn:EX.
      { exfalso. apply existsb_exists in EX. destruct EX as (x & U & E). apply str_in_iff in E. rewrite <- I in E. exact (D f x (or_introl eq_refl) E U). }
      rewrite (proj2 (IH _ rest)); [reflexivity|]. split; [exact F'|]. split; [exact P'|].
      intros g x G X U. apply in_app_or in U. destruct U as [U|U]; [exact (D g x (or_intror G) X U)|]. rewrite <- I in U.
      rewrite Forall_forall in A. exact (A g G x U X).
  Qed.

  (** ** Headings and identifiers *)
  Lemma heading_name f c : consistent_name _ show hash f c = heading f c.
  Proof. reflexivity. Qed.
  Lemma heading_inj f g c d : plain show hash f -> plain show hash g -> heading f c = heading g d ->
    c = d /\ f_class _ f = f_class _ g /\ hash (param_str _ show (f_hyper _ f)) = hash (param_str _ show (f_hyper _ g)).
  Proof.
    intros [C1 H1] [C2 H2] E. unfold Spec_Features.heading in E.
    rewrite <- !(app_assoc_s "::" (f_class val _)), <- !app_assoc_s in E. rewrite !(app_assoc_s _ "::" (hash _)) in E.
    apply last_colon in E; [|assumption|assumption]. destruct E as [E ->].
    rewrite !app_assoc_s in E. apply last_colon in E; [|assumption|assumption]. destruct E as [-> ->]. auto.
  Qed.
  Lemma id_inj f g file file' c d : plain show hash f -> plain show hash g -> no_colon c -> no_colon d ->
    column_id _ show hash file f c = column_id _ show hash file' g d ->
    file = file' /\ c = d /\ f_class _ f = f_class _ g /\ hash (param_str _ show (f_hyper _ f)) = hash (param_str _ show (f_hyper _ g)).
  Proof.
    intros [C1 H1] [C2 H2] N1 N2 E. unfold column_id, op_id, delimiter in E.
    assert (T : forall a b c d, (a ++ "::" ++ (b ++ "::" ++ c) ++ "::" ++ d = ((a ++ "::" ++ b) ++ "::" ++ c) ++ "::" ++ d)%string)
      by (intros; rewrite !app_assoc_s; reflexivity).
    rewrite !T in E. apply last_colon in E; [|assumption|assumption]. destruct E as [E ->].
    apply last_colon in E; [|assumption|assumption]. destruct E as [E ->]. apply last_colon in E; [|assumption|assumption]. destruct E as [-> ->]. auto.
  Qed.

  Lemma has_ids (f : featurizer) file c v : file_of f file -> has_feature f c v -> In (column_id _ show hash file f c) (ids f).
  Proof.
    intros [FP _] (t & FT & I). unfold ids. rewrite FT, FP. apply in_map_iff. exists (c, [v]). auto.
  Qed.
  Lemma apart_no_clash f g : apart f g -> ~ clash f g.
  Proof.
    intros A (file & c & v & w & F & G & CL & H & HF & HG). apply (A (column_id _ show hash file f c)).
    - apply (has_ids _ _ _ _ F HF).
    - replace (column_id val show hash file f c) with (column_id val show hash file g c); [apply (has_ids _ _ _ _ G HG)|].
      unfold column_id, op_id. rewrite CL, H. reflexivity.
  Qed.
  Lemma one_value (f : featurizer) t c : one_row f -> f_features _ f = Some t -> In c (columns t) -> exists v, c = (fst c, [v]) /\ has_feature f (fst c) v.
  Proof.
    intros (t' & FT & NR & L & ND) FT' I. rewrite FT in FT'. injection FT' as <-. rewrite Forall_forall in L. specialize (L c I).
    destruct c as [k vs]. cbn in *. destruct vs as [|v [|? ?]]; try discriminate. exists v. split; [reflexivity|]. exists t'. auto.
  Qed.
  Lemma no_clash_apart (f g : featurizer) : one_row f -> one_row g -> plain show hash f -> plain show hash g ->
    (forall c v, has_feature f c v -> no_colon c) -> (forall c v, has_feature g c v -> no_colon c) -> (exists file, file_of f file) -> (exists file, file_of g file) ->
    ~ clash f g -> apart f g.
  Proof.
    intros OF OG PF PG CF CG [file FF] [file' FG] N x X Y. apply N. unfold ids in X, Y.
    destruct (f_features val f) as [t|] eqn:TF; [|destruct X]. destruct (f_features val g) as [t'|] eqn:TG; [|destruct Y].
    pose proof (proj1 FF) as PFF. pose proof (proj1 FG) as PGG. rewrite PFF in X. rewrite PGG in Y.
    apply in_map_iff in X. destruct X as (c & <- & X). apply in_map_iff in Y. destruct Y as (d & E & Y).
    destruct (one_value _ _ _ OF TF X) as (v & _ & HF). destruct (one_value _ _ _ OG TG Y) as (w & _ & HG).
    destruct (id_inj _ _ _ _ _ _ PG PF (CG _ _ HG) (CF _ _ HF) E) as (-> & EC & CL & H).
    exists file, (fst c), v, w. rewrite EC in HG. repeat split; try apply FF; try apply FG; auto.
  Qed.

  (** ** What is collected for each file *)
  Lemma tidy_one f t : tidy f -> f_features _ f = Some t -> n_rows t = 1%nat -> one_row f.
  Proof. intros T FT NR. destruct (T t FT) as [L ND]. exists t. rewrite NR in L. auto. Qed.
  Lemma gives_in f r h v : tidy f -> gives f r -> In (h, v) (snd r) <-> exists c, has_feature f c v /\ h = heading f c.
  Proof.
    intros T (t & file & FT & NR & _ & ->). pose proof (tidy_one _ _ T FT NR) as O. cbn [snd]. rewrite in_flat_map. split.
    - intros (c & C & I). apply in_map_iff in I. destruct I as (x & [= <- <-] & X).
      destruct (one_value _ _ _ O FT C) as (w & E & H). rewrite E in X. cbn in X. destruct X as [->|[]]. exists (fst c). auto.
    - intros (c & (t' & FT' & I) & ->). rewrite FT in FT'. injection FT' as <-. exists (c, [v]). split; [exact I|]. left. reflexivity.
  Qed.
  Lemma gives_file f r : gives f r -> file_of f (fst r).
  Proof. intros (t & file & _ & _ & F & ->). exact F. Qed.
  Lemma gives_names f r : tidy f -> gives f r -> map fst (snd r) = map (fun c => heading f (fst c)) (match f_features _ f with Some t => columns t | None => [] end).
  Proof.
    intros T (t & file & FT & NR & _ & ->). destruct (T t FT) as [L _]. rewrite NR in L. rewrite FT. cbn [snd]. clear FT. revert L.
    induction (columns t) as [|[k vs] cs IH]; intro L; cbn; [reflexivity|]. inversion L as [|? ? L1 L2]; subst. cbn in L1. destruct vs as [|v [|? ?]]; try discriminate.
    cbn. f_equal. apply IH, L2.
  Qed.
  Lemma heading_nodup f r : tidy f -> plain show hash f -> gives f r -> NoDup (map fst (snd r)).
  Proof.
    intros T P G. rewrite (gives_names _ _ T G). destruct G as (t & file & FT & _). rewrite FT. destruct (T t FT) as [_ ND]. clear - ND P.
    induction (columns t) as [|c cs IH]; cbn in *; [constructor|]. inversion ND as [|? ? N ND']; subst. constructor; [|apply IH, ND'].
    intro I. apply in_map_iff in I. destruct I as (d & E & I). destruct (heading_inj _ _ _ _ P P E) as [E' _]. apply N. rewrite <- E'. apply in_map. exact I.
  Qed.

  Lemma f2_in_l {A B} (R : A -> B -> Prop) l m x : Forall2 R l m -> In x l -> exists y, In y m /\ R x y.
  Proof. induction 1 as [|a b l m H F IH]; [intros []|]. intros [<-|I]; [exists b; cbn; auto|]. destruct (IH I) as (y & Y & Z). exists y. cbn. auto. Qed.
  Lemma f2_in_r {A B} (R : A -> B -> Prop) l m y : Forall2 R l m -> In y m -> exists x, In x l /\ R x y.
  Proof. induction 1 as [|a b l m H F IH]; [intros []|]. intros [<-|I]; [exists a; cbn; auto|]. destruct (IH I) as (x & X & Z). exists x. cbn. auto. Qed.

  Lemma rows_apart l rows : Forall tidy l -> Forall (plain show hash) l -> Forall2 gives l rows -> ForallOrdPairs (fun f g => ~ clash f g) l ->
    ForallOrdPairs (fun r s => fst r = fst s -> forall h, In h (map fst (snd r)) -> ~ In h (map fst (snd s))) rows.
  Proof.
    intros T P F. induction F as [|f r l rows G F IH]; intro C; [constructor|].
    inversion T as [|? ? T1 T2]; subst. inversion P as [|? ? P1 P2]; subst. inversion C as [|? ? C1 C2]; subst. constructor; [|apply IH; assumption].
    apply Forall_forall. intros s S E h H1 H2. destruct (f2_in_r _ _ _ _ F S) as (g & Gl & GS).
    apply in_map_iff in H1. destruct H1 as ([h1 v] & <- & H1). apply in_map_iff in H2. destruct H2 as ([h2 w] & E2 & H2). cbn in E2. subst h2.
    rewrite Forall_forall in T2, P2, C1. apply (gives_in _ _ _ _ T1 G) in H1. apply (gives_in _ _ _ _ (T2 _ Gl) GS) in H2.
    destruct H1 as (c & HF & EF). destruct H2 as (d & HG & EG). cbn in EF. rewrite EF in EG. destruct (heading_inj _ _ _ _ P1 (P2 _ Gl) EG) as (<- & CL & HH).
    apply (C1 g Gl). exists (fst r), c, v, w. repeat split; try assumption.
    - apply (gives_file _ _ G). - apply (gives_file _ _ G). - rewrite E. apply (gives_file _ _ GS). - rewrite E. apply (gives_file _ _ GS).
  Qed.
  Lemma by_file_nodup rows : Forall (fun r => NoDup (map fst (snd r))) rows ->
    ForallOrdPairs (fun r s => fst r = fst s -> forall h, In h (map fst (snd r)) -> ~ In h (map fst (snd s))) rows ->
    Forall (fun r => NoDup (map fst (snd r))) (by_file rows).
  Proof.
    intros N P. apply Forall_forall. intros x X. apply in_map_iff in X. destruct X as (file & <- & _). cbn [snd].
    replace (map fst (flat_map snd (filter (fun r => String.eqb file (fst r)) rows)))
      with (flat_map (fun r : bind_row => map fst (snd r)) (filter (fun r => String.eqb file (fst r)) rows)).
    2:{ induction (filter _ rows) as [|r q IH]; cbn; [reflexivity|]. rewrite map_app, IH. reflexivity. }
    rewrite Forall_forall in N. apply nodup_flat_map.
    - intros r R. apply filter_In in R. apply N, R.
    - apply (fop_filter _ (fun r => String.eqb file (fst r))) in P. revert P. apply fop_impl. intros r s R S H. apply filter_In in R. apply filter_In in S.
      apply H. destruct R as [_ R]. destruct S as [_ S]. apply String.eqb_eq in R. apply String.eqb_eq in S. congruence.
  Qed.
  Lemma by_file_get rows file x : In x (map fst rows) -> x = file -> sget (by_file rows) file = Some (flat_map snd (filter (fun r => String.eqb file (fst r)) rows)).
  Proof.
    intros I ->. unfold by_file. apply uniq_in in I. revert I. induction (uniq_s (map fst rows)) as [|y l IH]; [intros []|]. intros I. cbn.
    destruct (String.eqb_spec file y) as [->|N]; [reflexivity|]. destruct I as [->|I]; [congruence|]. apply IH, I.
  Qed.
  Lemma sorted_get (l : list bind_row) file r : sget l file = Some r -> sget (map sorted_row l) file = Some (snd (sorted_row (file, r))).
  Proof.
    induction l as [|[k v] l IH]; cbn; [discriminate|]. destruct (String.eqb_spec file k) as [->|]; [intros [= ->]; reflexivity|]. exact IH.
  Qed.
End Features.
