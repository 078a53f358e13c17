(** Lemmas for C16, C17, C57, C58. *)
From Verif Require Import Py Num Model_Summary Model_Datapath Spec_Datapath.

Lemma sget_sset {V} (d : list (string * V)) k v k' :
  sget (sset d k v) k' = if String.eqb k' k then Some v else sget d k'.
Proof.
  unfold sget, sset. induction d as [|[a b] d IH]; simpl.
  - reflexivity.
  - destruct (String.eqb_spec k a) as [->|N]; simpl.
    + destruct (String.eqb k' a); reflexivity.
    + destruct (String.eqb_spec k' a) as [->|N'].
      * destruct (String.eqb_spec a k); [congruence|reflexivity].
      * exact IH.
Qed.
Lemma smem_sset {V} (d : list (string * V)) k v k' :
  smem (sset d k v) k' = String.eqb k' k || smem d k'.
Proof.
  unfold smem, d_mem. change (@d_get string V String.eqb) with (@sget V). rewrite sget_sset.
  destruct (String.eqb k' k); reflexivity.
Qed.
Lemma sset_idem {V} (d : list (string * V)) k v : sget d k = Some v -> sset d k v = d.
Proof.
  unfold sget, sset. induction d as [|[a b] d IH]; simpl; [discriminate|].
  destruct (String.eqb_spec k a); intro H.
  - injection H as ->. reflexivity.
  - rewrite IH by exact H. reflexivity.
Qed.

Section P.
  Context {D B : Type}.
  Variable sum_diag int_diag : frame -> D -> P B -> result frame.
  Variable int_cycles : frame -> option D -> P B -> result frame.
  Variable sum_cycles : frame -> option D -> P B -> outcome.
  Variable marks : frame -> list num.
  Variable find_schema : string -> option string.
  Notation structure' := (structure sum_diag int_diag int_cycles sum_cycles marks).
  Notation step' := (step sum_diag int_diag int_cycles sum_cycles marks find_schema).
  Notation run' := (run sum_diag int_diag int_cycles sum_cycles marks find_schema).
  Notation init' := (@init D B find_schema).

  Ltac brk := repeat match goal with
    | H : context [match ?x with _ => _ end] |- _ => destruct x eqn:?; try discriminate
    | H : (_, _) = (_, _) |- _ => injection H as <- <-
    | H : Ok _ = Ok _ |- _ => injection H as <-
    end.

  Lemma structure_ok d p d' : structure' d p = (d', Ok tt) ->
    exists raw sd ss, dp_legacy d = false /\ dp_raw d = Some raw /\
      int_cycles raw (dp_diag d) p = Ok sd /\ sum_cycles raw (dp_diag d) p = Done ss /\
      dp_sdata d' = Some sd /\ dp_ssum d' = Some ss /\ dp_params d' = Some (sp_base p) /\ dp_diag d' = dp_diag d /\
      same_identity d d' /\
      match dp_diag d with
      | Some dg => exists ds dd, sum_diag raw dg p = Ok ds /\ int_diag raw dg p = Ok dd /\
                     dp_dsum d' = Some ds /\ dp_ddata d' = Some dd
      | None => dp_dsum d' = dp_dsum d /\ dp_ddata d' = dp_ddata d
      end.
  Proof.
    unfold structure. destruct (dp_legacy d) eqn:L; [discriminate|].
    destruct (dp_raw d) as [raw|] eqn:R; [|discriminate].
    destruct (dp_diag d) as [dg|] eqn:G.
    - destruct (sum_diag raw dg p) as [ds|] eqn:E1; [|discriminate].
      destruct (int_diag raw dg p) as [dd|] eqn:E2; [|discriminate].
      simpl. destruct (int_cycles raw (Some dg) p) as [sd|] eqn:E3; [|discriminate].
      destruct (sum_cycles raw (Some dg) p) as [ss| |] eqn:E4; try discriminate.
      intro H. injection H as <-. exists raw, sd, ss. simpl.
      do 8 (split; [first [reflexivity|assumption]|]).
      split; [unfold same_identity; simpl; auto|]. exists ds, dd. auto.
    - destruct (int_cycles raw None p) as [sd|] eqn:E3; [|discriminate].
      destruct (sum_cycles raw None p) as [ss| |] eqn:E4; try discriminate.
      intro H. injection H as <-. exists raw, sd, ss. simpl.
      do 8 (split; [first [reflexivity|assumption]|]).
      split; [unfold same_identity; simpl; auto|]. auto.
  Qed.

  (** What any call of structure can do to the raw data and the identity. *)
  Lemma structure_frame d p d' r : structure' d p = (d', r) ->
    same_identity d d' /\ dp_diag d' = dp_diag d /\ (dp_raw d' = dp_raw d \/ exists raw, dp_raw d = Some raw /\ dp_raw d' = Some (mark marks raw)).
  Proof.
    unfold structure, same_identity. intro H. brk; subst; simpl in *; repeat split; auto; try (left; congruence); right; eauto.
  Qed.

  Lemma same_raw_refl f : same_raw f f.
  Proof. destruct f; simpl; auto. Qed.
  Lemma same_raw_trans a b c : same_raw a b -> same_raw b c -> same_raw a c.
  Proof.
    destruct a, b, c; simpl; try tauto. intros [H1 H2] [H3 H4]. split; [congruence|].
    intros x N. rewrite (H2 x N). auto.
  Qed.
  Lemma same_raw_mark f : same_raw (Some f) (Some (mark marks f)).
  Proof.
    simpl. split; [reflexivity|]. intros c N. rewrite sget_sset.
    destruct (String.eqb_spec c "time_since_cycle_start"); [contradiction|reflexivity].
  Qed.
  Lemma same_identity_refl (d : datapath D B) : same_identity d d.
  Proof. unfold same_identity; auto. Qed.
  Lemma same_identity_trans (a b c : datapath D B) : same_identity a b -> same_identity b c -> same_identity a c.
  Proof. unfold same_identity. intros (?&?&?&?) (?&?&?&?). repeat split; congruence. Qed.

  Lemma step_keeps d o d' r : no_reload o -> step' d o = (d', r) -> same_identity d d' /\ same_raw (dp_raw d) (dp_raw d').
  Proof.
    intros N H. destruct o; simpl in N, H; try contradiction.
    - injection H as <- _. split; [apply same_identity_refl|apply same_raw_refl].
    - destruct (structure_frame _ _ _ _ H) as (I & _ & [E|(raw & E1 & E2)]); split; auto.
      + rewrite E. apply same_raw_refl.
      + rewrite E1, E2. apply same_raw_mark.
    - unfold unstructure in H. destruct (dp_legacy d) eqn:L; injection H as <- _.
      + split; [apply same_identity_refl|apply same_raw_refl].
      + split; [unfold same_identity; simpl; auto|apply same_raw_refl].
    - injection H as <- _. split; [unfold same_identity; simpl; auto|apply same_raw_refl].
  Qed.
  Lemma run_keeps ops : forall d d' rs, Forall no_reload ops -> run' d ops = (d', rs) ->
    same_identity d d' /\ same_raw (dp_raw d) (dp_raw d').
  Proof.
    induction ops as [|o ops IH]; simpl; intros d d' rs F H.
    - injection H as <- _. split; [apply same_identity_refl|apply same_raw_refl].
    - inversion F; subst. destruct (step' d o) as [d1 x] eqn:E1. destruct (run' d1 ops) as [d2 xs] eqn:E2.
      injection H as <- _. destruct (step_keeps _ _ _ _ H2 E1) as [A1 A2].
      destruct (IH _ _ _ H3 E2) as [B1 B2].
      split; [eapply same_identity_trans; eauto|eapply same_raw_trans; eauto].
  Qed.

  Lemma run_app ops1 : forall d ops2, run' d (ops1 ++ ops2) =
    let (d1, x) := run' d ops1 in let (d2, y) := run' d1 ops2 in (d2, x ++ y).
  Proof.
    induction ops1 as [|o ops1 IH]; simpl; intros d ops2.
    - destruct (run' d ops2); reflexivity.
    - destruct (step' d o) as [d1 x]. rewrite IH. destruct (run' d1 ops1) as [d2 xs].
      destruct (run' d2 ops2); reflexivity.
  Qed.

  (** ** is_structured *)
  Lemma load_structured fn j (d : datapath D B) : from_json find_schema fn j = Ok d -> is_structured d = true.
  Proof.
    unfold from_json, from_dict. simpl. intro H.
    destruct (j_raw j), (j_meta j); destruct (init' _ _ _ _); try discriminate H; injection H as <-; reflexivity.
  Qed.
  Lemma structured_hist ops : forall d d' rs, run' d ops = (d', rs) -> all_ok rs ->
    reloads_structured (is_structured d) ops -> is_structured d' = structured_after (is_structured d) ops.
  Proof.
    induction ops as [|o ops IH]; simpl; intros d d' rs H A R.
    - injection H as <- _. reflexivity.
    - destruct (step' d o) as [d1 x] eqn:E1. destruct (run' d1 ops) as [d2 xs] eqn:E2. injection H as <- <-.
      inversion A; subst. destruct o; simpl in E1.
      + injection E1 as <- _. eauto.
      + assert (S : is_structured d1 = true).
        { destruct (structure_ok _ _ _ E1) as (raw & sd & ss & _ & _ & _ & _ & _ & S & _). unfold is_structured. rewrite S. reflexivity. }
        rewrite (IH _ _ _ E2 H2); rewrite S; auto.
      + assert (S : is_structured d1 = false).
        { unfold unstructure in E1. destruct (dp_legacy d); [discriminate E1|]. injection E1 as <-. reflexivity. }
        rewrite (IH _ _ _ E2 H2); rewrite S; auto.
      + injection E1 as <-. exact (IH _ _ _ E2 H2 R).
      + destruct (to_json d omit_raw) as [j|]; [|discriminate E1].
        destruct (from_json find_schema filename j) as [d3|] eqn:E3; [|discriminate E1]. injection E1 as <-.
        destruct R as [R1 R2]. pose proof (load_structured _ _ _ E3) as S.
        rewrite (IH _ _ _ E2 H2); rewrite S, <- R1; auto.
  Qed.
  Lemma init_fresh raw m paths schema d : init' raw m paths schema = Ok d ->
    never_structured d /\ dp_legacy d = false /\ is_structured d = false.
  Proof.
    unfold init. destruct (negb _); [discriminate|].
    destruct schema as [s|]; simpl.
    - destruct (String.eqb s ""); simpl; [|destruct (find_schema s); simpl; [|discriminate]];
        intro H; injection H as <-; unfold never_structured; simpl; auto 10.
    - intro H; injection H as <-; unfold never_structured; simpl; auto 10.
  Qed.
  Lemma is_structured_history raw m paths schema d0 ops d rs :
    init' raw m paths schema = Ok d0 -> run' d0 ops = (d, rs) -> all_ok rs -> reloads_structured false ops ->
    is_structured d = structured_after false ops.
  Proof.
    intros I H A R. destruct (init_fresh _ _ _ _ _ I) as (_ & _ & S).
    rewrite <- S at 1. apply (structured_hist _ _ _ _ H A). rewrite S. exact R.
  Qed.

  (** ** unstructure *)
  Lemma unstructure_clean raw m paths schema d0 ops d rs :
    init' raw m paths schema = Ok d0 -> Forall no_reload ops -> run' d0 (ops ++ [OUnstructure]) = (d, rs) ->
    never_structured d /\ is_structured d = false /\ same_identity d0 d /\ same_raw (dp_raw d0) (dp_raw d) /\ last_error rs = Some (Ok tt).
  Proof.
    intros I F H. destruct (init_fresh _ _ _ _ _ I) as (_ & L & _).
    assert (F' : Forall no_reload (ops ++ [@OUnstructure D B])).
    { apply Forall_app. split; [exact F|]. constructor; simpl; auto. }
    pose proof (run_keeps _ _ _ _ F' H) as [K1 K2].
    rewrite run_app in H. destruct (run' d0 ops) as [d1 xs] eqn:E1. simpl in H.
    destruct (run_keeps _ _ _ _ F E1) as [(_ & _ & _ & L1) _].
    unfold unstructure in H. rewrite <- L1, L in H. injection H as <- <-.
    repeat split; auto; try apply K1.
    clear. induction xs as [|x xs IH]; [reflexivity|]. simpl. destruct (xs ++ [Ok tt]) eqn:E; [destruct xs; discriminate|exact IH].
  Qed.

  (** ** legacy objects *)
  Lemma legacy_step d o d' r : dp_legacy d = true -> step' d o = (d', r) ->
    match o with OSetDiag _ => r = Ok tt | _ => r = Err ValueError end /\ dp_legacy d' = true /\
    dp_sdata d' = dp_sdata d /\ dp_ssum d' = dp_ssum d /\ dp_ddata d' = dp_ddata d /\ dp_dsum d' = dp_dsum d /\
    dp_params d' = dp_params d /\ dp_meta d' = dp_meta d /\ dp_paths d' = dp_paths d.
  Proof.
    intros L H. destruct o; simpl in H.
    - rewrite L in H. injection H as <- <-. auto 12.
    - unfold structure in H. rewrite L in H. injection H as <- <-. auto 12.
    - unfold unstructure in H. rewrite L in H. injection H as <- <-. auto 12.
    - injection H as <- <-. simpl. auto 12.
    - unfold to_json, as_dict in H. rewrite L in H. simpl in H. injection H as <- <-. auto 12.
  Qed.
  Lemma legacy_history ops : forall d d' rs, dp_legacy d = true -> run' d ops = (d', rs) ->
    dp_sdata d' = dp_sdata d /\ dp_ssum d' = dp_ssum d /\ dp_ddata d' = dp_ddata d /\ dp_dsum d' = dp_dsum d /\
    dp_params d' = dp_params d /\ dp_meta d' = dp_meta d /\ dp_paths d' = dp_paths d /\
    Forall2 (fun o r => r = match o with OSetDiag _ => Ok tt | _ => Err ValueError end) ops rs.
  Proof.
    induction ops as [|o ops IH]; simpl; intros d d' rs L H.
    - injection H as <- <-. auto 12.
    - destruct (step' d o) as [d1 x] eqn:E1. destruct (run' d1 ops) as [d2 xs] eqn:E2. injection H as <- <-.
      destruct (legacy_step _ _ _ _ L E1) as (A0 & A1 & A2 & A3 & A4 & A5 & A6 & A7 & A8).
      destruct (IH _ _ _ A1 E2) as (B2 & B3 & B4 & B5 & B6 & B7 & B8 & B9).
      repeat split; try congruence. constructor; [destruct o; exact A0|exact B9].
  Qed.

  (** ** reload *)
  Definition wf_raw (f : frame) : Prop := smem (f_cols f) "temperature" = true /\ smem (f_cols f) "internal_resistance" = true.
  Definition wf (d : datapath D B) : Prop :=
    forallb path_ok (dp_paths d) = true /\ dp_paths d <> [] /\
    (forall s, dp_schema d = Some s -> s = ""%string \/ find_schema s = Some s) /\
    (forall f, dp_raw d = Some f -> wf_raw f).
  Lemma impute_wf f : wf_raw (impute f).
  Proof.
    unfold impute, wf_raw, impute1.
    destruct (smem (f_cols f) "temperature") eqn:E1; simpl.
    - destruct (smem (f_cols f) "internal_resistance") eqn:E2; simpl; rewrite ?smem_sset, ?E1, ?E2; auto.
    - destruct (smem (sset (f_cols f) "temperature" (repeat None (length (f_index f)))) "internal_resistance") eqn:E2; simpl; rewrite ?smem_sset; rewrite ?smem_sset in E2; rewrite ?E1, ?E2; auto.
  Qed.
  Lemma impute_id f : wf_raw f -> impute f = f.
  Proof. intros [H1 H2]. unfold impute, impute1. rewrite H1, H2. reflexivity. Qed.
  Lemma path_ok_sset ps fn : forallb path_ok ps = true -> prefix "/" fn = true -> forallb path_ok (sset ps "structured" (Some fn)) = true.
  Proof.
    intros H F. induction ps as [|[a b] ps IH].
    - unfold sset. cbn [d_set forallb]. unfold path_ok. cbn [snd]. rewrite F, orb_true_r. reflexivity.
    - cbn [forallb] in H. apply andb_prop in H. destruct H as [H1 H2]. unfold sset. cbn [d_set].
      destruct (String.eqb "structured" a); cbn [forallb].
      + unfold path_ok at 1. cbn [snd]. rewrite F, orb_true_r. exact H2.
      + rewrite H1. exact (IH H2).
  Qed.
  Lemma sset_nonempty {V} (d : list (string * V)) k v : sset d k v <> [].
  Proof. destruct d as [|[a b] d]; unfold sset; simpl; [discriminate|]. destruct (String.eqb k a); discriminate. Qed.

  Hypothesis schema_stays : forall s p, find_schema s = Some p -> find_schema p = Some p.

  Lemma init_wf raw m paths schema d : init' raw m paths schema = Ok d -> wf d.
  Proof.
    unfold init. destruct (negb _) eqn:P0; [discriminate|]. apply negb_false_iff in P0.
    assert (PP : forall x y, (match paths with [] => [("raw"%string, None)] | _ :: _ => paths end) = x -> y = x ->
               forallb path_ok y = true /\ y <> []).
    { intros x y <- ->. destruct paths; split; auto; discriminate. }
    destruct schema as [s|]; simpl.
    - destruct (String.eqb_spec s "") as [->|N]; simpl.
      + intro H. injection H as <-. unfold wf. simpl. destruct (PP _ _ eq_refl eq_refl). split; [auto|]. split; [auto|]. split.
        * intros s E. injection E as <-. auto.
        * intros f E. destruct raw; [|discriminate E]. injection E as <-. apply impute_wf.
      + destruct (find_schema s) as [p|] eqn:E0; simpl; [|discriminate].
        intro H. injection H as <-. unfold wf. simpl. destruct (PP _ _ eq_refl eq_refl). split; [auto|]. split; [auto|]. split.
        * intros s' E. injection E as <-. right. eauto.
        * intros f E. destruct raw; [|discriminate E]. injection E as <-. apply impute_wf.
    - intro H. injection H as <-. unfold wf. simpl. destruct (PP _ _ eq_refl eq_refl). split; [auto|]. split; [auto|]. split.
      * intros s' E. discriminate.
      * intros f E. destruct raw; [|discriminate E]. injection E as <-. apply impute_wf.
  Qed.
  Lemma wf_keeps d d' : wf d -> same_identity d d' ->
     (dp_raw d' = dp_raw d \/ exists raw, dp_raw d = Some raw /\ dp_raw d' = Some (mark marks raw)) -> wf d'.
  Proof.
    intros (W1 & W2 & W3 & W4) (I1 & I2 & I3 & I4) R. unfold wf. rewrite <- I2, <- I3.
    split; [auto|]. split; [auto|]. split; [auto|]. destruct R as [R|(raw & R1 & R2)].
    - rewrite R. exact W4.
    - intros f E. rewrite R2 in E. injection E as <-. destruct (W4 _ R1) as [X Y].
      split; simpl; rewrite smem_sset; rewrite ?X, ?Y; reflexivity.
  Qed.
  Lemma load_wf fn j (d : datapath D B) : from_json find_schema fn j = Ok d -> wf d.
  Proof.
    unfold from_json, from_dict. simpl. intro H.
    destruct (j_raw j), (j_meta j);
      match type of H with context [bind ?i _] => destruct i as [d0|] eqn:E; [|discriminate H] end;
      apply init_wf in E; injection H as <-; unfold wf in *; simpl; exact E.
  Qed.
  Lemma step_wf d o d' r : wf d -> step' d o = (d', r) -> wf d'.
  Proof.
    intros W H. destruct o; simpl in H.
    - injection H as <- _. exact W.
    - destruct (structure_frame _ _ _ _ H) as (I & _ & R). exact (wf_keeps _ _ W I R).
    - unfold unstructure in H. destruct (dp_legacy d); injection H as <- _; auto.
    - injection H as <- _. exact W.
    - destruct (to_json d omit_raw) as [j|]; [|injection H as <- _; exact W].
      destruct (from_json find_schema filename j) as [d3|] eqn:E3; injection H as <- _; [|exact W].
      exact (load_wf _ _ _ E3).
  Qed.
  Lemma run_wf ops : forall d d' rs, wf d -> run' d ops = (d', rs) -> wf d'.
  Proof.
    induction ops as [|o ops IH]; simpl; intros d d' rs W H.
    - injection H as <- _. exact W.
    - destruct (step' d o) as [d1 x] eqn:E1. destruct (run' d1 ops) as [d2 xs] eqn:E2. injection H as <- _.
      exact (IH _ _ _ (step_wf _ _ _ _ W E1) E2).
  Qed.

  Lemma init_same raw m paths schema :
    forallb path_ok paths = true -> paths <> [] -> (forall s, schema = Some s -> s = ""%string \/ find_schema s = Some s) ->
    exists d, init' raw m paths schema = Ok d /\ dp_raw d = option_map impute raw /\ dp_meta d = m /\ dp_paths d = paths /\ dp_schema d = schema.
  Proof.
    intros P1 P2 S. unfold init. rewrite P1. simpl.
    destruct schema as [s|]; simpl.
    - destruct (String.eqb_spec s "") as [->|N]; simpl.
      + eexists; split; [reflexivity|]. simpl. destruct paths; [contradiction|auto].
      + destruct (S s eq_refl) as [->|E]; [contradiction|]. rewrite E. simpl.
        eexists; split; [reflexivity|]. simpl. destruct paths; [contradiction|auto].
    - eexists; split; [reflexivity|]. simpl. destruct paths; [contradiction|auto].
  Qed.

  Lemma same_cols_of f : same_columns_opt (option_map of_dict (option_map to_dict f)) f.
  Proof. destruct f; simpl; unfold same_columns; auto. Qed.

  Lemma to_json_ok (d : datapath D B) omit j : to_json d omit = Ok j -> is_structured d = true ->
    exists raw s c, dp_raw d = Some raw /\ dp_ssum d = Some s /\ dp_sdata d = Some c /\ dp_legacy d = false.
  Proof.
    unfold to_json, as_dict. intros H S. destruct (dp_legacy d); [discriminate|]. rewrite S in H.
    destruct (dp_raw d) as [raw|]; [|discriminate]. destruct (dp_ssum d) as [s|]; [|discriminate].
    destruct (dp_sdata d) as [c|]; [|discriminate]. exists raw, s, c; auto.
  Qed.

  (** The object after saving with raw data and loading. *)
  Lemma reload_full d fn j : wf d -> is_structured d = true -> prefix "/" fn = true -> to_json d false = Ok j ->
    exists d', from_json find_schema fn j = Ok d' /\ is_structured d' = true /\ dp_legacy d' = false /\
      same_columns_opt (dp_sdata d') (dp_sdata d) /\ same_columns_opt (dp_ssum d') (dp_ssum d) /\
      same_columns_opt (dp_ddata d') (dp_ddata d) /\ same_columns_opt (dp_dsum d') (dp_dsum d) /\
      same_columns_opt (dp_raw d') (dp_raw d) /\
      dp_diag d' = dp_diag d /\ dp_params d' = dp_params d /\ dp_meta d' = dp_meta d /\ dp_schema d' = dp_schema d /\
      dp_paths d' = sset (dp_paths d) "structured" (Some fn) /\
      (forall f, In (Some f) [dp_sdata d'; dp_ssum d'; dp_ddata d'; dp_dsum d'; dp_raw d'] -> f_index f = range_index (nrows (f_cols f))).
  Proof.
    intros (W1 & W2 & W3 & W4) S F H. destruct (to_json_ok _ _ _ H S) as (raw & s & c & R & Es & Ec & L).
    unfold to_json, as_dict in H. rewrite L, R, S, Es, Ec in H. simpl in H. injection H as <-.
    unfold from_json, from_dict. cbn [j_raw j_meta j_paths j_schema j_cycles j_summary j_ddata j_dsum j_diag j_params].
    destruct (init_same (Some (of_dict (to_dict raw))) (dp_meta d) (sset (dp_paths d) "structured" (Some fn)) (dp_schema d)
               (path_ok_sset _ _ W1 F) (sset_nonempty _ _ _) W3) as (d0 & E0 & R0 & M0 & P0 & S0).
    rewrite E0. simpl. eexists. split; [reflexivity|].
    assert (RR : dp_raw d0 = Some (of_dict (to_dict raw))).
    { rewrite R0. simpl. rewrite impute_id; [reflexivity|]. exact (W4 _ R). }
    cbn [is_structured dp_ssum is_some dp_legacy dp_sdata dp_ddata dp_dsum dp_raw dp_diag dp_params dp_meta dp_schema dp_paths orb].
    rewrite RR, R, M0, P0, S0, Es, Ec.
    split; [reflexivity|]. split; [reflexivity|]. split; [reflexivity|]. split; [reflexivity|].
    split; [apply same_cols_of|]. split; [apply same_cols_of|]. split; [reflexivity|].
    do 5 (split; [reflexivity|]).
    intros f [E|[E|[E|[E|[E|[]]]]]].
    - injection E as <-. reflexivity.
    - injection E as <-. reflexivity.
    - destruct (dp_ddata d); [|discriminate E]. injection E as <-. reflexivity.
    - destruct (dp_dsum d); [|discriminate E]. injection E as <-. reflexivity.
    - injection E as <-. reflexivity.
  Qed.

  (** The object after saving without raw data (the default) and loading. *)
  Lemma reload_omit d fn j : wf d -> is_structured d = true -> prefix "/" fn = true -> to_json d true = Ok j ->
    exists d', from_json find_schema fn j = Ok d' /\ is_structured d' = true /\ dp_legacy d' = true /\ dp_raw d' = None /\
      same_columns_opt (dp_sdata d') (dp_sdata d) /\ same_columns_opt (dp_ssum d') (dp_ssum d) /\
      same_columns_opt (dp_ddata d') (dp_ddata d) /\ same_columns_opt (dp_dsum d') (dp_dsum d) /\
      dp_diag d' = dp_diag d /\ dp_params d' = dp_params d /\ dp_schema d' = dp_schema d /\
      dp_paths d' = sset (dp_paths d) "structured" (Some fn) /\
      (forall k, In k ["barcode"; "protocol"; "channel_id"]%string -> sget (dp_meta d') k = sget (dp_meta d) k).
  Proof.
    intros (W1 & W2 & W3 & W4) S F H. destruct (to_json_ok _ _ _ H S) as (raw & s & c & R & Es & Ec & L).
    unfold to_json, as_dict in H. rewrite L, R, S, Es, Ec in H. simpl in H. injection H as <-.
    unfold from_json, from_dict. cbn [j_raw j_meta j_paths j_schema j_cycles j_summary j_ddata j_dsum j_diag j_params].
    match goal with |- context [init find_schema None ?m _ _] =>
      destruct (init_same None m (sset (dp_paths d) "structured" (Some fn)) (dp_schema d)
               (path_ok_sset _ _ W1 F) (sset_nonempty _ _ _) W3) as (d0 & E0 & R0 & M0 & P0 & S0) end.
    rewrite E0. simpl. eexists. split; [reflexivity|].
    cbn [is_structured dp_ssum is_some dp_legacy dp_sdata dp_ddata dp_dsum dp_raw dp_diag dp_params dp_meta dp_schema dp_paths orb].
    rewrite R0, M0, P0, S0, Es, Ec.
    split; [reflexivity|]. split; [reflexivity|]. split; [reflexivity|]. split; [reflexivity|]. split; [reflexivity|].
    split; [apply same_cols_of|]. split; [apply same_cols_of|].
    do 4 (split; [reflexivity|]).
    unfold legacy_meta. cbn [j_barcode j_protocol j_channel].
    intros k [<-|[<-|[<-|[]]]];
      destruct (sget (dp_meta d) "barcode"), (sget (dp_meta d) "protocol"), (sget (dp_meta d) "channel_id"); reflexivity.
  Qed.

  (** A second save and load to the same file gives the very same object. *)
  Lemma of_to_range f : f_index f = range_index (nrows (f_cols f)) -> of_dict (to_dict f) = f.
  Proof. destruct f as [i c]; simpl. intros ->. reflexivity. Qed.
  Lemma reload_stable d fn j d1 j1 : wf d -> is_structured d = true -> prefix "/" fn = true ->
    to_json d false = Ok j -> from_json find_schema fn j = Ok d1 -> to_json d1 false = Ok j1 ->
    from_json find_schema fn j1 = Ok d1.
  Proof.
    intros W S F H E1 H1. destruct (reload_full _ _ _ W S F H) as (d1' & E1' & S1 & L1 & _ & _ & _ & _ & _ & _ & _ & _ & _ & P1 & I1).
    rewrite E1 in E1'. injection E1' as <-.
    pose proof (load_wf _ _ _ E1) as (W1 & W2 & W3 & W4).
    destruct (to_json_ok _ _ _ H1 S1) as (raw & s & c & R & Es & Ec & L).
    unfold to_json, as_dict in H1. rewrite L, R, S1, Es, Ec in H1. simpl in H1. injection H1 as <-.
    unfold from_json, from_dict. cbn [j_raw j_meta j_paths j_schema j_cycles j_summary j_ddata j_dsum j_diag j_params].
    assert (PS : sset (dp_paths d1) "structured" (Some fn) = dp_paths d1).
    { apply sset_idem. rewrite P1. rewrite sget_sset. reflexivity. }
    rewrite PS.
    destruct (init_same (Some (of_dict (to_dict raw))) (dp_meta d1) (dp_paths d1) (dp_schema d1) W1 W2 W3) as (d0 & E0 & R0 & M0 & P0 & S0).
    rewrite E0. simpl.
    rewrite R0, M0, P0, S0.
    assert (TO : forall o, In o [dp_sdata d1; dp_ssum d1; dp_ddata d1; dp_dsum d1; dp_raw d1] -> option_map of_dict (option_map to_dict o) = o).
    { intros [f|] K; [|reflexivity]. simpl. f_equal. apply of_to_range. exact (I1 f K). }
    pose proof (TO (dp_sdata d1) ltac:(simpl; auto)) as T1. pose proof (TO (dp_ssum d1) ltac:(simpl; auto)) as T2.
    pose proof (TO (dp_ddata d1) ltac:(simpl; auto)) as T3. pose proof (TO (dp_dsum d1) ltac:(simpl; auto)) as T4.
    pose proof (TO (dp_raw d1) ltac:(simpl; auto 10)) as T5.
    rewrite T3, T4. rewrite Ec in T1. rewrite Es in T2. rewrite R in T5. simpl in T1, T2, T5.
    injection T1 as T1. injection T2 as T2. injection T5 as T5. simpl. rewrite T1, T2, T5.
    rewrite impute_id by exact (W4 _ R). f_equal. destruct d1; simpl in *. congruence.
  Qed.

  (** ** cycle life after a reload: positions instead of labels *)
  Lemma life_reload d fn j d' s caps omit thr : wf d -> is_structured d = true -> prefix "/" fn = true ->
    to_json d omit = Ok j -> from_json find_schema fn j = Ok d' ->
    dp_ssum d = Some s -> sget (f_cols s) "discharge_capacity" = Some caps ->
    summary_life d thr = get_cycle_life (combine (f_index s) caps) 40 thr /\
    summary_life d' thr = get_cycle_life (combine (range_index (nrows (f_cols s))) caps) 40 thr.
  Proof.
    intros W S F H E Es C. split.
    - unfold summary_life, guarded. rewrite S, Es, C. reflexivity.
    - assert (K : is_structured d' = true /\ dp_ssum d' = Some (of_dict (to_dict s))).
      { split; [exact (load_structured _ _ _ E)|]. destruct (to_json_ok _ _ _ H S) as (raw & s' & c & R & Es' & Ec & L).
        rewrite Es in Es'. injection Es' as <-.
        unfold to_json, as_dict in H. rewrite L, R, S, Es, Ec in H. simpl in H.
        destruct omit; injection H as <-; unfold from_json, from_dict in E; simpl in E;
          match type of E with context [bind ?i _] => destruct i as [d0|]; [|discriminate E] end; injection E as <-; reflexivity. }
      destruct K as [K1 K2]. unfold summary_life, guarded. rewrite K1, K2. unfold to_dict; cbn [of_dict f_cols f_index]; rewrite C. reflexivity.
  Qed.
  (** structure() is a function of the object and all its arguments. *)
  Lemma structure_deterministic d1 d2 p1 p2 d1' d2' :
    dp_raw d1 = dp_raw d2 -> dp_diag d1 = dp_diag d2 -> sp_exclude p1 = sp_exclude p2 ->
    structure' d1 p1 = (d1', Ok tt) -> structure' d2 p2 = (d2', Ok tt) -> dp_params d1' = dp_params d2' ->
    dp_sdata d1' = dp_sdata d2' /\ dp_ssum d1' = dp_ssum d2'.
  Proof.
    intros R G X H1 H2 PP.
    destruct (structure_ok _ _ _ H1) as (r1 & s1 & t1 & _ & R1 & I1 & S1 & A1 & B1 & P1 & _).
    destruct (structure_ok _ _ _ H2) as (r2 & s2 & t2 & _ & R2 & I2 & S2 & A2 & B2 & P2 & _).
    assert (p1 = p2) by (destruct p1, p2; simpl in *; congruence). subst p2.
    assert (r1 = r2) by congruence. subst r2. rewrite G in I1, S1. split; congruence.
  Qed.
End P.
