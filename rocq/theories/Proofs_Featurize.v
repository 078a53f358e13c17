(** Lemmas behind the properties of file names and of `beep featurize`. *)
From Verif Require Import Py Num Model_Cmd Spec_Cmd Proofs_Datapath Proofs_Diagnostic Proofs_Strings Proofs_Structure Proofs_Cmd.
From Verif Require Proofs_Procedure_Whole Proofs_Generate Proofs_M2B.
From Coq Require Import Permutation.

(** ** Names *)
Lemma basename_last d b : slash_free b -> basename (d ++ "/" ++ b) = b.
Proof.
  intros F. unfold basename. cbn [append]. rewrite Proofs_Procedure_Whole.last_split.
  unfold slash_free in F. rewrite str_split_none by exact F. reflexivity.
Qed.
Lemma last_dot_none e : dot_free e -> last_dot e = None.
Proof.
  unfold dot_free. induction e as [|c e IH]; intros H; [reflexivity|]. cbn [contains] in H. apply orb_false_iff in H. destruct H as [H1 H2].
  cbn [last_dot]. rewrite IH by exact H2. destruct (Ascii.eqb_spec c "."); [|reflexivity]. subst.
  destruct e; discriminate H1.
Qed.
Lemma last_dot_app s e : dot_free e -> last_dot (s ++ "." ++ e) = Some (s, ("." ++ e)%string).
Proof.
  intros H. induction s as [|c s IH].
  - cbn [append last_dot]. rewrite last_dot_none by exact H. reflexivity.
  - cbn [append last_dot]. cbn [append] in IH. now rewrite IH.
Qed.
Lemma add_suffix_stem d s e out : slash_free s -> slash_free e -> dot_free e -> only_dots s = false ->
  add_suffix (d ++ "/" ++ s ++ "." ++ e) out "_structured" ".json.gz" = path_join out (s ++ "_structured.json.gz").
Proof.
  intros S E D N. unfold add_suffix. rewrite basename_last.
  - unfold splitext. rewrite last_dot_app by exact D. rewrite N. reflexivity.
  - assert (F : char_free "/" (s ++ String "." e)).
    { apply char_free_app. split; [exact S|]. apply char_free_cons. split; [discriminate|exact E]. }
    exact F.
Qed.
Lemma path_join_inj out a b : path_join out a = path_join out b -> a = b.
Proof.
  unfold path_join. destruct (ends_slash out); intros H; apply app_inv_head_s in H; [exact H|]. cbn [append] in H. now injection H.
Qed.

Section Featurize.
  Context (abspath : string -> string) (md5 : string -> string -> result string).
  Context {run feat value matrix : Type}.
  Notation fclass := (fclass run feat value).
  Notation hyper := (list (string * value)).
  Context (load_processed : string -> string -> result run) (fvalidate : feat -> result (bool * string)) (create_features : feat -> result feat).
  Context (dump_feat : feat -> result string) (matrix_of : list feat -> result matrix) (dump_matrix : matrix -> result string).
  Context (writable : string -> result unit).
  Context (native : list (string * fclass)) (all_features all_targets : list string).
  Context (import_class : string -> result (option fclass)) (literal_eval : string -> result (option (list (string * option hyper)))).
  Notation apply_one := (apply_one abspath md5 run feat value fvalidate create_features dump_feat writable).
  Notation apply_all := (apply_all abspath md5 run feat value fvalidate create_features dump_feat writable).
  Notation each_file := (each_file abspath md5 run feat value load_processed fvalidate create_features dump_feat writable).
  Notation resolve := (resolve run feat value native import_class).
  Notation intermediate := (intermediate abspath run feat value).
  Notation computed := (computed fvalidate create_features).
  Notation accepts := (accepts fvalidate).
  Notation true_entry := (true_entry fvalidate create_features).
  Notation gathered := (gathered fvalidate create_features).

  Notation stands_for := (stands_for native import_class).
  Notation asked := (asked native import_class).
  Notation read_as := (read_as load_processed).

  Lemma update_get (p : hyper) : forall d k,
    sget (update value d p) k = match last_error (map snd (filter (fun x => String.eqb (fst x) k) p)) with Some v => Some v | None => sget d k end.
  Proof.
    unfold update. induction p as [|[a v] p IH]; intros d k; [reflexivity|]. cbn [fold_left fst snd filter].
    rewrite IH. destruct (String.eqb_spec a k) as [->|N].
    - cbn [map snd]. destruct (map snd (filter (fun x => String.eqb (fst x) k) p)) as [|u l] eqn:E; [cbn; now rewrite sget_this|].
      destruct (last_error (u :: l)) eqn:L; [cbn [last_error]; cbn [last_error] in L; now rewrite L|].
      exfalso. clear E. revert u L. clear. induction l; intros u L; [discriminate|]. cbn [last_error] in *. eapply IHl, L.
    - rewrite sget_other by exact N. reflexivity.
  Qed.
  Lemma resolve_spec : forall l cs, resolve l = Finished cs -> Forall2 asked l cs.
  Proof.
    induction l as [|[n p] l IH]; intros cs R; [injection R as <-; constructor|]. cbn [Model_Cmd.resolve] in R.
    assert (go : forall c, match resolve l with
                   | Finished r => Finished ((c, match p with Some p => update value (defaults _ _ _ c) p | None => defaults _ _ _ c end) :: r)
                   | x => x end = Finished cs -> stands_for n c -> Forall2 asked ((n, p) :: l) cs).
    { intros c R' S. destruct (resolve l) as [r| |]; try discriminate. injection R' as <-. constructor; [|now apply IH].
      split; [exact S|]. cbn. intros k. destruct p as [p|]; [apply update_get|reflexivity]. }
    destruct (sget native n) as [c|] eqn:N; [apply (go c R); now left|].
    destruct (contains "." n) eqn:D; cbn [negb] in R; [|discriminate].
    destruct (import_class n) as [[c|]|] eqn:I; try discriminate. apply (go c R). now right.
  Qed.

  Lemma apply_one_spec o f r c h w w' x s e : apply_one o f r c h w = (w', x, s, e) ->
    featurizer_name _ s = fname _ _ _ c /\ hyperparameters _ s = h /\
    (valid _ s = true <-> accepts c h r) /\ (featurized _ s = true <-> exists y, computed c h r y) /\
    (featurized _ s = false -> e <> None) /\
    (forall y, x = Some y <-> computed c h r y) /\
    (forall p, save_intermediates o = true -> p <> intermediate o c f -> sget w' p = sget w p) /\
    (save_intermediates o = false -> w' = w).
  Proof.
    unfold Model_Cmd.apply_one, Spec_Cmd.computed, Spec_Cmd.accepts. intros A.
    Ltac opened2 := repeat match goal with
      | H : exists _, _ |- _ => destruct H
      | H : _ /\ _ |- _ => destruct H
      end.
    destruct (make _ _ _ c r h) as [z|z] eqn:M.
    2: { injection A as <- <- <- <-. cbn. repeat split; try discriminate; try reflexivity; intros; opened2; congruence. }
    destruct (fvalidate z) as [[[] q]|q] eqn:V.
    2: { injection A as <- <- <- <-. cbn. repeat split; try discriminate; try reflexivity; intros; opened2; congruence. }
    2: { injection A as <- <- <- <-. cbn. repeat split; try discriminate; try reflexivity; intros; opened2; congruence. }
    destruct (create_features z) as [y|y] eqn:C.
    2: { injection A as <- <- <- <-. cbn. repeat split; try discriminate; try reflexivity; eauto; intros; opened2; congruence. }
    assert (CC : forall y', Some y = Some y' <-> exists x reason, Ok z = Ok x /\ fvalidate x = Ok (true, reason) /\ create_features x = Ok y').
    { intros y'. split; [intros [= <-]; eauto|]. intros; opened2; congruence. }
    assert (EX : exists y x reason, Ok z = Ok x /\ fvalidate x = Ok (true, reason) /\ create_features x = Ok y) by (exists y, z, q; auto).
    assert (AC : exists x reason, Ok z = Ok x /\ fvalidate x = Ok (true, reason)) by (exists z, q; auto).
    destruct (save_intermediates o) eqn:SI.
    2: { injection A as <- <- <- <-. cbn. repeat split; try discriminate; try reflexivity; try (intros _; exact EX); try (intros _; exact AC); try apply CC. }
    destruct (let! t := dump_feat y in let! _ := writable (intermediate o c f) in Ok t) as [t|t].
    2: { injection A as <- <- <- <-. cbn. repeat split; try discriminate; try reflexivity; try (intros _; exact EX); try (intros _; exact AC); try apply CC. }
    destruct (md5sum md5 _ _) as [k|k]; injection A as <- <- <- <-; cbn; repeat split; try discriminate; try reflexivity; try (intros _; exact EX); try (intros _; exact AC); try apply CC;
      intros; apply sget_other; congruence.
  Qed.

  Lemma apply_all_spec o f r : forall cs w w' xs ss, apply_all o f r cs w = (w', Finished (xs, ss)) ->
    Forall2 (true_entry r) cs ss /\ gathered (map (pair r) cs) xs /\
    (forall p, save_intermediates o = true -> (forall c, In c (map fst cs) -> p <> intermediate o c f) -> sget w' p = sget w p) /\
    (save_intermediates o = false -> w' = w).
  Proof.
    induction cs as [|[c h] cs IH]; intros w w' xs ss A.
    - injection A as <- <- <-. split; [constructor|]. split; [constructor|]. split; reflexivity.
    - cbn [Model_Cmd.apply_all] in A. destruct (apply_one o f r c h w) as [[[w1 x] s] e] eqn:O.
      destruct (apply_one_spec _ _ _ _ _ _ _ _ _ _ O) as (E1 & E2 & E3 & E4 & E5 & E6 & E7 & E8).
      assert (go : forall s', match apply_all o f r cs w1 with
                 | (w, Finished (xs, ss)) => (w, Finished (match x with Some x => x :: xs | None => xs end, s' :: ss))
                 | y => y end = (w', Finished (xs, ss)) -> true_entry r (c, h) s' ->
               Forall2 (true_entry r) ((c, h) :: cs) ss /\ gathered (map (pair r) ((c, h) :: cs)) xs /\
               (forall p, save_intermediates o = true -> (forall c', In c' (map fst ((c, h) :: cs)) -> p <> intermediate o c' f) -> sget w' p = sget w p) /\
               (save_intermediates o = false -> w' = w)).
      { intros s' A' T. destruct (apply_all o f r cs w1) as [w2 [[xs2 ss2]| |]] eqn:R; try discriminate. injection A' as <- <- <-.
        destruct (IH _ _ _ _ R) as (F & G & U & Z). split; [now constructor|]. split; [|split].
        - cbn [map]. destruct x as [y|]; [apply gathered_yes; [now apply E6|exact G]|].
          apply gathered_no; [|exact G]. intros y Cy. apply E6 in Cy. discriminate.
        - intros p Sp N. rewrite U by (auto; intros c' I; apply N; now right). apply E7; [exact Sp|]. apply N. now left.
        - intros Sp. rewrite Z by exact Sp. now apply E8. }
      assert (T : forall s', featurizer_name _ s' = featurizer_name _ s -> hyperparameters _ s' = hyperparameters _ s -> valid _ s' = valid _ s ->
                   featurized _ s' = featurized _ s -> (featurized _ s = false -> s_trace _ s' <> None) -> true_entry r (c, h) s').
      { intros s' S1 S2 S3 S4 S5. constructor; cbn [fst snd]; [now rewrite S1|now rewrite S2|now rewrite S3|now rewrite S4|now rewrite S4]. }
      destruct e as [e|].
      + destruct (is_interrupt e); [discriminate|]. destruct (f_halt o); [discriminate|]. apply (go _ A). apply T; try reflexivity. discriminate.
      + apply (go _ A). apply T; try reflexivity. intros Fs. destruct (E5 Fs eq_refl).
  Qed.

  Lemma gathered_app (l m : list (run * (fclass * hyper))) xs ys : gathered l xs -> gathered m ys -> gathered (l ++ m) (xs ++ ys).
  Proof. induction 1; intros G; cbn; [exact G|apply gathered_yes; auto|apply gathered_no; auto]. Qed.

  Lemma each_file_spec o cs : forall fs w bfs acc w' bfs' acc', each_file o fs cs w bfs acc = (w', Finished (bfs', acc')) ->
    NoDup fs -> (forall f, In f fs -> ~ In f (map fst acc)) ->
    (save_intermediates o = true -> forall c f g, In f fs -> In g fs -> intermediate o c f <> g) ->
    exists rs new xs, Forall2 (read_as w) fs rs /\ acc' = acc ++ new /\ map fst new = fs /\
      Forall2 (fun r st => Forall2 (true_entry r) cs (subs _ (snd st))) rs new /\
      bfs' = bfs ++ xs /\ gathered (flat_map (fun r => map (pair r) cs) rs) xs /\
      (forall p, (save_intermediates o = true -> forall c f, In f fs -> p <> intermediate o c f) -> sget w' p = sget w p).
  Proof.
    induction fs as [|f fs IH]; intros w bfs acc w' bfs' acc' A N K D.
    - injection A as <- <- <-. exists [], [], []. rewrite !app_nil_r. repeat split; constructor.
    - cbn [Model_Cmd.each_file] in A. inversion N as [|? ? Na Nb]; subst.
      destruct (md5sum md5 w f) as [h|]; [|discriminate]. destruct (sget w f) as [b|] eqn:B; [|discriminate].
      destruct (load_processed f b) as [r|] eqn:L; [|discriminate].
      destruct (apply_all o f r cs w) as [w1 [[xs ss]| |]] eqn:P; try discriminate.
      destruct (apply_all_spec _ _ _ _ _ _ _ _ P) as (F & G & U & Z).
      assert (W1 : forall p, (save_intermediates o = true -> forall c, p <> intermediate o c f) -> sget w1 p = sget w p).
      { intros p Np. destruct (save_intermediates o) eqn:SI; [apply U; [reflexivity|]; intros; now apply Np|now rewrite Z]. }
      rewrite sset_fresh in A by (apply K; now left).
      destruct (IH _ _ _ _ _ _ A Nb) as (rs & new & ys & R & -> & Kn & F2 & -> & G2 & U2).
      { intros g I. rewrite map_app. intros J. apply in_app_or in J. destruct J as [J|[J|[]]]; [apply (K g); [now right|exact J]|cbn in J; subst; contradiction]. }
      { intros S c g k I J. apply D; [exact S|now right|now right]. }
      exists (r :: rs), ((f, {| processed_chksum := h; subs := ss |}) :: new), (xs ++ ys).
      split; [constructor; [exists b; split; assumption|]|].
      { clear - R W1 D. revert rs R. assert (E : forall g, In g fs -> sget w1 g = sget w g).
        { intros g I. apply W1. intros S c X. apply (D S c f g); [now left|now right|now symmetry]. }
        clear W1 D. induction fs as [|g fs IHf]; intros rs R; inversion R; subst; constructor.
        - unfold Spec_Cmd.read_as in *. rewrite <- E by now left. assumption.
        - apply IHf; [intros; apply E; now right|assumption]. }
      split; [now rewrite <- app_assoc|]. split; [cbn; now rewrite Kn|]. split; [constructor; assumption|].
      split; [now rewrite <- app_assoc|]. split; [cbn; now apply gathered_app|].
      intros p Np. rewrite U2, W1; [reflexivity| |]; intros; apply Np; auto; [now left|now right].
  Qed.
End Featurize.
