(** C52-C54, C77-C79: the commands of beep. *)
From Verif Require Import Py Num Model_Cmd Spec_Cmd Proofs_Datapath Proofs_Diagnostic Proofs_Structure Proofs_Cmd Proofs_Featurize.
From Verif Require Model_Generate Proofs_M2B.
From Coq Require Import Permutation.

Section Structure.
  Context (abspath : string -> string) (md5 : string -> string -> result string) {data : Type}.
  Context (auto_load : string -> string -> result data) (schema : data -> string) (validate : data -> result (bool * string)).
  Context (structure_with autostructure : data -> result data).
  Context (structuring_parameters : data -> string) (dump : bool -> data -> result string) (writable : string -> result unit).
  Notation structure := (structure abspath md5 data auto_load schema validate structure_with autostructure structuring_parameters dump writable).
  Notation each := (each md5 data auto_load schema validate structure_with autostructure structuring_parameters dump writable).
  Notation output_files := (output_files abspath).
  Notation truthful := (truthful md5 auto_load schema validate structure_with autostructure structuring_parameters dump writable).
  Notation written := (written md5 auto_load validate structure_with autostructure dump writable).
  Notation trouble := (trouble md5 auto_load validate structure_with autostructure dump writable).
  Notation passes := (passes md5 auto_load validate).
  Notation uninterrupted := (uninterrupted md5 auto_load validate structure_with autostructure dump writable).

  Lemma combine_fst {A B} (l : list A) : forall (m : list B), length m = length l -> map fst (combine l m) = l.
  Proof. induction l as [|x l IH]; intros [|y m] H; cbn in *; try discriminate; [reflexivity|]. f_equal. apply IH. lia. Qed.
  Lemma combine_snd {A B} (l : list A) : forall (m : list B), length m = length l -> map snd (combine l m) = m.
  Proof. induction l as [|x l IH]; intros [|y m] H; cbn in *; try discriminate; [reflexivity|]. f_equal. apply IH. lia. Qed.
  Lemma combine_nth {A B} (l : list A) : forall (m : list B) i x y, nth_error l i = Some x -> nth_error m i = Some y -> nth_error (combine l m) i = Some (x, y).
  Proof. induction l as [|a l IH]; intros [|b m] [|i] x y; cbn; try discriminate; [congruence|apply IH]. Qed.
  Lemma files_there fs (w : disk) : existsb (fun f => negb (smem w f)) fs = false -> forall f, In f fs -> exists b, sget w f = Some b.
  Proof.
    intros E f I. destruct (smem w f) eqn:M.
    - unfold smem, d_mem in M. fold (sget w f) in M. change (d_get String.eqb w f) with (sget w f) in M. destruct (sget w f); [eauto|discriminate].
    - assert (existsb (fun f => negb (smem w f)) fs = true) by (apply existsb_exists; exists f; rewrite M; auto). congruence.
  Qed.
  Lemma output_length o fs outs : output_files o fs = Ok outs -> length outs = length fs.
  Proof.
    unfold Model_Cmd.output_files. destruct (output_dir o); [intros [= <-]; apply map_length|].
    destruct (output_filenames o) as [|x l]; [intros [= <-]; apply map_length|].
    destruct (Nat.eqb_spec (length fs) (length (x :: l))) as [E|E]; [|discriminate]. intros [= <-]. cbn in *. rewrite map_length. congruence.
  Qed.

  (** Every file is judged on its own: if the inputs are different files and the outputs are different
      and none of them is an input, then whatever happens with the others there is exactly one status
      for each file, it is true of the file as it was at the start, and the output is written exactly
      when the status says so. *)
  Theorem C52_every_file_accounted_for o given w w' rep outs :
    structure o given w = (w', Finished rep) -> output_files o (map abspath given) = Ok outs -> apart (map abspath given) outs ->
    map fst (statuses rep) = map abspath given /\
    (forall i f out b, nth_error (map abspath given) i = Some f -> nth_error outs i = Some out -> sget w f = Some b ->
       exists s, sget (statuses rep) f = Some s /\ truthful o f b out s /\ written o f b out w w') /\
    (forall p, ~ In p outs -> sget w' p = sget w p).
  Proof.
    unfold Model_Cmd.structure. set (fs := map abspath given). intros S O (N1 & N2 & L & D).
    destruct (existsb _ fs) eqn:Ex; [discriminate|]. rewrite O in S. pose proof (files_there _ _ Ex) as X.
    destruct (each o (combine fs outs) w []) as [w1 [st|e|c]] eqn:E; try discriminate. injection S as <- <-.
    apply each_spec in E; try (rewrite ?combine_fst, ?combine_snd by exact L; auto; fail).
    destruct E as (U & (new & -> & F) & _). cbn [app] in *. rewrite combine_snd in U by exact L.
    assert (Kn : map fst new = fs).
    { rewrite <- (combine_fst fs outs L). clear - F. induction F as [|x y l m [H _] F IH]; [reflexivity|]. cbn. now rewrite IH, H. }
    split; [exact Kn|]. split; [|exact U].
    intros i f out b Hf Ho Hb. pose proof (combine_nth _ _ _ _ _ Hf Ho) as Hc.
    assert (G : exists y, nth_error new i = Some y /\ told md5 auto_load schema validate structure_with autostructure structuring_parameters dump writable o w w1 (f, out) y).
    { clear - F Hc. revert i Hc. induction F as [|x y l m R F IH]; intros [|i] H; cbn in *; try discriminate; [injection H as ->; eauto|now apply IH]. }
    destruct G as ([g s] & Hn & Hg & T). cbn in Hg. subst g. exists s. destruct (T b Hb) as [T1 T2]. split; [|split; assumption].
    cbn [statuses sorted_out]. clear - Hn N1 Kn. fold fs in N1. rewrite <- Kn in N1. clear Kn. revert i Hn N1. induction new as [|[g t] new IH]; intros [|i] Hn N1; cbn in *; try discriminate.
    - injection Hn as -> ->. unfold sget. cbn. now rewrite String.eqb_refl.
    - inversion N1; subst. unfold sget. cbn. destruct (String.eqb_spec f g) as [->|_]; [|eapply IH; eassumption].
      destruct H1. apply nth_error_In in Hn. now apply (in_map fst) in Hn.
  Qed.

  (** Without halt-on-error the command always comes to an end with a report. *)
  Theorem C52_errors_do_not_stop_it o given w outs :
    halt_on_error o = false -> uninterrupted -> output_files o (map abspath given) = Ok outs ->
    (forall f, In f (map abspath given) -> exists b, sget w f = Some b) ->
    exists w' rep, structure o given w = (w', Finished rep) /\ (forall f, In f (map abspath given) <-> In f (map fst (statuses rep))).
  Proof.
    intros H U O X. unfold Model_Cmd.structure. set (fs := map abspath given) in *.
    assert (Ex : existsb (fun f => negb (smem w f)) fs = false).
    { destruct (existsb _ fs) eqn:E; [|reflexivity]. apply existsb_exists in E. destruct E as (f & I & E). destruct (X f I) as [b B].
      unfold smem, d_mem in E. change (d_get String.eqb w f) with (sget w f) in E. rewrite B in E. discriminate. }
    rewrite Ex, O. apply output_length in O.
    assert (K : forall f b out e, trouble o f b out e -> is_interrupt e = false).
    { destruct U as (U1 & U2 & U3 & U4 & U5 & U6 & U7). intros f b out e T. destruct (is_interrupt e) eqn:I; [|reflexivity].
      assert (e = KeyboardInterrupt) by (destruct e; try discriminate; cbn in I; apply String.eqb_eq in I; now subst).
      exfalso. destruct T as [? E|? ? _ E|? ? ? _ _ E|? ? ? _ _ _|d ? _ _ E|d d' ? _ _ _ E|? ? ? _ E]; subst;
        try (eapply U1; eassumption); try (eapply U2; eassumption); try (eapply U3; eassumption).
      - discriminate.
      - unfold process in E. destruct (automatic o); [eapply U5; eassumption|eapply U4; eassumption].
      - destruct (dump (no_raw o) d') eqn:DD; cbn in E;
          [destruct (writable out) eqn:WW; cbn in E; [discriminate|injection E as ->; eapply U7; exact WW]|injection E as ->; eapply U6; eassumption]. }
    assert (M : forall l w acc, (forall f, In f (map fst l) -> exists b, sget w f = Some b) ->
                exists w' st, each o l w acc = (w', Finished st) /\ forall f, In f (map fst l) \/ In f (map fst acc) <-> In f (map fst st)).
    { induction l as [|[f out] l IH]; intros w0 acc X0; [exists w0, acc; split; [reflexivity|intros f; cbn; tauto]|].
      cbn [Model_Cmd.each]. destruct (X0 f (or_introl eq_refl)) as [b B].
      destruct (attempt _ _ _ _ _ _ _ _ _ _ o f out w0) as [[w1 s] e] eqn:T. destruct (attempt_spec _ _ _ _ _ _ _ _ _ _ _ _ _ _ _ _ _ T B) as (_ & Te & Tp & Tw).
      assert (X1 : forall g, In g (map fst l) -> exists b, sget w1 g = Some b).
      { intros g I. destruct (String.eqb_spec g out) as [->|N]; [|rewrite Tp by exact N; apply X0; now right].
        destruct e as [e|]; revert T; clear - X0 I; unfold attempt;
        destruct (X0 out (or_intror I)) as [b0 B0];
        repeat match goal with |- (match ?x with _ => _ end = _) -> _ => destruct x end;
        try (intros [= <- <- <-]); try (intros [= <- <-]); try discriminate; try (rewrite sget_this); eauto. }
      assert (G : forall s', exists w' st, each o l w1 (sset acc f s') = (w', Finished st) /\ forall g, In g (f :: map fst l) \/ In g (map fst acc) <-> In g (map fst st)).
      { intros s'. destruct (IH w1 (sset acc f s') X1) as (w2 & st & E & I). exists w2, st. split; [exact E|]. intros g. rewrite <- I.
        assert (KS : In g (map fst (sset acc f s')) <-> f = g \/ In g (map fst acc)).
        { clear. induction acc as [|[k v] acc IHa]; [cbn; tauto|]. unfold sset in *. cbn. destruct (String.eqb_spec f k) as [->|N]; cbn; [tauto|]. rewrite IHa. tauto. }
        rewrite KS. cbn. tauto. }
      destruct e as [e|]; [|apply G]. rewrite (K f b out e) by now apply Te. rewrite H. apply G. }
    destruct (M (combine fs outs) w []) as (w' & st & E & I); [rewrite combine_fst by exact O; exact X|].
    rewrite E. exists w', (sorted_out (length fs) st). split; [reflexivity|]. intros f. cbn [statuses sorted_out]. rewrite <- I, combine_fst by exact O. cbn. tauto.
  Qed.

  (** With halt-on-error, the first file in trouble ends the run: the files before it were in no
      trouble and are written, no output of a later file is touched, and a run that finishes met no
      trouble at all. *)
  Theorem C52_halt_on_error o given w w' x outs :
    structure o given w = (w', x) -> halt_on_error o = true -> output_files o (map abspath given) = Ok outs ->
    apart (map abspath given) outs -> (forall f, In f (map abspath given) -> exists b, sget w f = Some b) ->
    let fine := fun fo : string * string => forall b e, sget w (fst fo) = Some b -> ~ trouble o (fst fo) b (snd fo) e in
    match x with
    | Finished rep => Forall fine (combine (map abspath given) outs)
    | Crashed e => exists pre f out post b, combine (map abspath given) outs = pre ++ (f, out) :: post /\
        sget w f = Some b /\ trouble o f b out e /\ Forall fine pre /\
        Forall (fun fo => forall b, sget w (fst fo) = Some b -> written o (fst fo) b (snd fo) w w') pre /\
        (forall p, ~ In p (map snd pre) -> p <> out -> sget w' p = sget w p)
    | Exited c => exists pre f out post b e, combine (map abspath given) outs = pre ++ (f, out) :: post /\
        sget w f = Some b /\ trouble o f b out e /\ is_interrupt e = true
    end.
  Proof.
    unfold Model_Cmd.structure. set (fs := map abspath given) in *. intros S H O (N1 & N2 & L & D) X.
    assert (Ex : existsb (fun f => negb (smem w f)) fs = false).
    { destruct (existsb _ fs) eqn:E; [|reflexivity]. apply existsb_exists in E. destruct E as (f & I & E). destruct (X f I) as [b B].
      unfold smem, d_mem in E. change (d_get String.eqb w f) with (sget w f) in E. rewrite B in E. discriminate. }
    rewrite Ex, O in S. destruct (each o (combine fs outs) w []) as [w1 y] eqn:E.
    pose proof (each_spec _ _ _ _ _ _ _ _ _ _ _ _ _ _ _ E) as P.
    rewrite combine_fst, combine_snd in P by exact L. specialize (P N1 N2 D (fun _ _ F => F) X).
    destruct y as [st|e|c]; injection S as <- <-.
    - destruct P as (_ & _ & P). exact (P H).
    - destruct P as (_ & _ & pre & f & out & post & b & P1 & P2 & P3 & P4 & P5). destruct (P5 H) as [P6 P7].
      exists pre, f, out, post, b. auto 10.
    - destruct P as (_ & e & I & pre & f & out & post & b & P1 & P2 & P3 & _). exists pre, f, out, post, b, e. auto.
  Qed.

  (** The three lists of the report: each file with a status is in exactly one of them. *)
  Theorem C52_report o given w w' rep : structure o given w = (w', Finished rep) ->
    Permutation (succeeded rep ++ failed rep ++ invalid rep) (map fst (statuses rep)) /\
    (NoDup (map fst (statuses rep)) -> forall f s, sget (statuses rep) f = Some s ->
       (In f (succeeded rep) <-> validated s = true /\ structured s = true) /\
       (In f (failed rep) <-> validated s = true /\ structured s = false) /\
       (In f (invalid rep) <-> validated s = false)).
  Proof.
    intros S. assert (E : exists n st, rep = sorted_out n st).
    { revert S. unfold Model_Cmd.structure. destruct (existsb _ _); [discriminate|]. destruct (output_files _ _); [|discriminate].
      destruct (each _ _ _ _) as [w1 [st| |]]; try discriminate. intros [= _ <-]. eauto. }
    destruct E as (n & st & ->). cbn. clear. split.
    - induction st as [|[f s] st IH]; [constructor|]. cbn [filter map fst snd]. destruct (validated s), (structured s); cbn [andb negb map fst app].
      + constructor. exact IH.
      + rewrite <- Permutation_middle. constructor. exact IH.
      + rewrite !app_assoc. rewrite <- Permutation_middle. constructor. rewrite <- app_assoc. exact IH.
      + rewrite !app_assoc. rewrite <- Permutation_middle. constructor. rewrite <- app_assoc. exact IH.
    - intros N f s G.
      assert (F : forall g, In f (map fst (filter g st)) <-> g (f, s) = true).
      { intros g. rewrite in_map_iff. split.
        - intros ([f' s'] & E & I). cbn in E. subst. apply filter_In in I. destruct I as [I Hg].
          assert (s' = s); [|now subst]. clear Hg. induction st as [|[k v] st IH]; [destruct I|]. inversion N; subst. unfold sget in G. cbn in G.
          destruct I as [I|I]; [injection I as -> ->; rewrite String.eqb_refl in G; congruence|].
          destruct (String.eqb_spec f k) as [->|_]; [destruct H1; now apply (in_map fst) in I|]. now apply IH.
        - intros Hg. exists (f, s). split; [reflexivity|]. apply filter_In. split; [|exact Hg]. now apply sget_in. }
      rewrite !F. cbn. destruct (validated s), (structured s); cbn; intuition congruence.
  Qed.

  (** In a validation-only run nothing is ever counted as succeeded and no disk content changes; a
      file that passes is listed with those that failed. *)
  Theorem C52_validation_only o given w w' rep : structure o given w = (w', Finished rep) -> validation_only o = true ->
    succeeded rep = [] /\ w' = w.
  Proof.
    unfold Model_Cmd.structure. destruct (existsb _ _); [discriminate|]. destruct (output_files _ _) as [outs|]; [|discriminate].
    destruct (each _ _ _ _) as [w1 [st| |]] eqn:E; try discriminate. intros [= -> <-] V. cbn.
    assert (M : forall l w acc w' st, each o l w acc = (w', Finished st) -> (forall x, In x acc -> structured (snd x) = false) ->
              w' = w /\ forall x, In x st -> structured (snd x) = false).
    { clear - V. assert (T : forall f out w w' s e, attempt md5 data auto_load schema validate structure_with autostructure structuring_parameters dump writable o f out w = (w', s, e) -> w' = w /\ structured s = false).
      { unfold attempt. intros f out w w' s e. rewrite V.
        repeat match goal with |- (match ?x with _ => _ end = _) -> _ => destruct x end; try (intros [= <- <- <-]); auto; discriminate. }
      assert (KS : forall acc f s, (forall x, In x acc -> structured (snd x) = false) -> structured s = false -> forall x, In x (sset acc f s) -> structured (snd x) = false).
      { intros acc f s A B. induction acc as [|[k v] acc IH]; unfold sset in *; cbn; [intros x [<-|[]]; exact B|].
        destruct (String.eqb f k); cbn; intros x [<-|I]; try exact B; try (apply A; now right); try (apply (A (k, v)); now left).
        apply IH; [intros; apply A; now right|exact I]. }
      induction l as [|[f out] l IH]; intros w acc w' st E A; [injection E as <- <-; split; [reflexivity|exact A]|].
      cbn [Model_Cmd.each] in E. destruct (attempt _ _ _ _ _ _ _ _ _ _ o f out w) as [[w1 s] e] eqn:Te. destruct (T _ _ _ _ _ _ Te) as [-> Ts].
      destruct e as [e|]; [destruct (is_interrupt e); [discriminate|]; destruct (halt_on_error o); [discriminate|]|]; apply IH in E; auto; apply KS; auto. }
    destruct (M _ _ _ _ _ E) as [-> Hs]; [intros x []|]. split; [|reflexivity].
    assert (F : filter (fun x => validated (snd x) && structured (snd x)) st = []); [|now rewrite F].
    clear - Hs. induction st as [|x st IH]; [reflexivity|]. cbn. rewrite (Hs x), andb_false_r by now left. apply IH. intros; apply Hs; now right.
  Qed.
End Structure.

(** Automatic names: `dir/stem.ext` becomes `out/stem_structured.json.gz`, so files with different
    stems get different outputs. *)
Theorem C52_automatic_names d s e out : slash_free s -> slash_free e -> dot_free e -> only_dots s = false ->
  add_suffix (d ++ "/" ++ s ++ "." ++ e) out "_structured" ".json.gz" = path_join out (s ++ "_structured.json.gz").
Proof. apply add_suffix_stem. Qed.
Theorem C52_automatic_names_distinct d1 s1 e1 d2 s2 e2 out :
  slash_free s1 -> slash_free e1 -> dot_free e1 -> only_dots s1 = false ->
  slash_free s2 -> slash_free e2 -> dot_free e2 -> only_dots s2 = false -> s1 <> s2 ->
  add_suffix (d1 ++ "/" ++ s1 ++ "." ++ e1) out "_structured" ".json.gz" <> add_suffix (d2 ++ "/" ++ s2 ++ "." ++ e2) out "_structured" ".json.gz".
Proof.
  intros A1 A2 A3 A4 B1 B2 B3 B4 N E. rewrite !add_suffix_stem in E by assumption. apply path_join_inj in E. apply N.
  apply (Proofs_Generate.app_cancel_r s1 s2 "_structured.json.gz"). exact E.
Qed.

(** A small world: a file's text is its data; a text with "broken" does not load, one with "odd" does
    not validate, one with "hard" does not structure, one with "stop" interrupts. *)
Definition toy_load (f b : string) : result string :=
    if contains "broken" b then Err ValueError else if contains "stop" b then Err KeyboardInterrupt else Ok b.
Definition toy_check (d : string) : result (bool * string) := Ok (negb (contains "odd" d), "reason"%string).
Definition toy_work (d : string) : result string := if contains "hard" d then Err IndexError else Ok ("structured " ++ d)%string.
Definition toy_opts := {| output_dir := Some "/out"%string; output_filenames := []; cwd := "/home"; automatic := false; validation_only := false; no_raw := false; halt_on_error := false |}.
Definition toy_only := {| output_dir := Some "/out"%string; output_filenames := []; cwd := "/home"; automatic := false; validation_only := true; no_raw := false; halt_on_error := false |}.
Definition toy_cmd := structure (fun p => p) (fun _ b => Ok ("#" ++ b)%string) string toy_load (fun _ => "schema"%string) toy_check toy_work toy_work (fun _ => "p"%string) (fun _ d => Ok d) (fun _ => Ok tt).
Definition toy_disk : disk := [("/a/good.csv", "abc"); ("/a/bad.csv", "broken"); ("/a/run.091", "first"); ("/a/run.092", "second"); ("/a/late.csv", "stop")]%string.
Example C52_nonvacuous :
  exists w' rep, toy_cmd toy_opts ["/a/good.csv"; "/a/bad.csv"]%string toy_disk = (w', Finished rep) /\
    apart ["/a/good.csv"; "/a/bad.csv"]%string ["/out/good_structured.json.gz"; "/out/bad_structured.json.gz"]%string /\
    output_files (fun p => p) toy_opts ["/a/good.csv"; "/a/bad.csv"]%string = Ok ["/out/good_structured.json.gz"; "/out/bad_structured.json.gz"]%string /\
    succeeded rep = ["/a/good.csv"]%string /\ invalid rep = ["/a/bad.csv"]%string /\
    sget w' "/out/good_structured.json.gz"%string = Some "structured abc"%string /\ slash_free "good" /\ dot_free "csv" /\ only_dots "good" = false.
Proof.
  eexists. eexists. split; [vm_compute; reflexivity|]. split.
  { split; [repeat constructor; cbn; intuition discriminate|]. split; [repeat constructor; cbn; intuition discriminate|].
    split; [reflexivity|]. intros x [<-|[<-|[]]]; cbn; intuition discriminate. }
  repeat split; vm_compute; reflexivity.
Qed.
(** Finding: automatic names drop the extension.  Maccor files of one run on different channels
    (`run.091`, `run.092`) are both reported structured to the same output, which holds only the last. *)
Theorem C52_outputs_kept_refuted :
  exists w' rep s1 s2, toy_cmd toy_opts ["/a/run.091"; "/a/run.092"]%string toy_disk = (w', Finished rep) /\
    NoDup ["/a/run.091"; "/a/run.092"]%string /\
    sget (statuses rep) "/a/run.091"%string = Some s1 /\ structured s1 = true /\ trace s1 = None /\
    sget (statuses rep) "/a/run.092"%string = Some s2 /\ structured s2 = true /\
    output s1 = output s2 /\ sget w' "/out/run_structured.json.gz"%string = Some "structured second"%string /\
    processed_md5 s1 = Some "#structured first"%string.
Proof.
  do 4 eexists. split; [vm_compute; reflexivity|]. split; [repeat constructor; cbn; intuition discriminate|]. repeat split; vm_compute; reflexivity.
Qed.
(** Finding: a file given twice has one status but is counted twice in the totals. *)
Theorem C52_totals_refuted :
  exists w' rep, toy_cmd toy_opts ["/a/good.csv"; "/a/good.csv"]%string toy_disk = (w', Finished rep) /\
    (length (succeeded rep) + length (failed rep) + length (invalid rep) < n_files rep)%nat.
Proof. do 2 eexists. split; [vm_compute; reflexivity|]. cbn. lia. Qed.
(** Finding: in a validation-only run the files that pass are listed as failed. *)
Theorem C52_valid_not_failed_refuted :
  exists w' rep s, toy_cmd toy_only ["/a/good.csv"]%string toy_disk = (w', Finished rep) /\
    sget (statuses rep) "/a/good.csv"%string = Some s /\ validated s = true /\ trace s = None /\ In "/a/good.csv"%string (failed rep).
Proof. do 3 eexists. split; [vm_compute; reflexivity|]. repeat split; try (vm_compute; reflexivity). now left. Qed.
(** Finding: a file that cannot even be read is listed as invalid, though nothing was validated. *)
Theorem C52_invalid_was_checked_refuted :
  exists w' rep, toy_cmd toy_opts ["/a/bad.csv"]%string toy_disk = (w', Finished rep) /\ In "/a/bad.csv"%string (invalid rep) /\
    forall d, toy_load "/a/bad.csv" "broken" <> Ok d.
Proof. do 2 eexists. split; [vm_compute; reflexivity|]. split; [now left|]. intros d. vm_compute. discriminate. Qed.
(** Finding: interrupted with Ctrl-C, the command leaves with exit code 0, the code of success, and
    without a report on the files done before. *)
Theorem C52_interrupt_code_refuted :
  exists w', toy_cmd toy_opts ["/a/good.csv"; "/a/late.csv"]%string toy_disk = (w', Exited 0) /\
    sget w' "/out/good_structured.json.gz"%string = Some "structured abc"%string.
Proof. eexists. split; vm_compute; reflexivity. Qed.

Section Featurize.
  Context (abspath : string -> string) (md5 : string -> string -> result string).
  Context {run feat value matrix : Type}.
  Notation fclass := (fclass run feat value).
  Notation hyper := (list (string * value)).
  Context (load_processed : string -> string -> result run) (fvalidate : feat -> result (bool * string)) (create_features : feat -> result feat).
  Context (dump_feat : feat -> result string) (matrix_of : list feat -> result matrix) (dump_matrix : matrix -> result string).
  Context (writable : string -> result unit).
  Context (native : list (string * fclass)) (all_features all_targets : list string).
  Context (import_class : string -> result (option fclass)) (literal_eval : string -> result (option (list (string * option hyper)))).
  Notation featurize := (featurize abspath md5 run feat value matrix load_processed fvalidate create_features dump_feat matrix_of dump_matrix writable native all_features all_targets import_class literal_eval).
  Notation apply_one := (apply_one abspath md5 run feat value fvalidate create_features dump_feat writable).
  Notation apply_all := (apply_all abspath md5 run feat value fvalidate create_features dump_feat writable).
  Notation each_file := (each_file abspath md5 run feat value load_processed fvalidate create_features dump_feat writable).
  Notation intermediate := (intermediate abspath run feat value).
  Notation asked := (asked native import_class).
  Notation true_entry := (true_entry fvalidate create_features).
  Notation gathered := (gathered fvalidate create_features).
  Notation read_as := (read_as load_processed).

  Lemma names_chosen o : chosen all_features all_targets (featurize_with o) (names_of all_features all_targets o).
  Proof.
    unfold names_of, chosen, str_in. destruct (existsb (String.eqb "all_features") (featurize_with o)) eqn:A.
    - left. split; [now apply Proofs_M2B.existsb_in|reflexivity].
    - assert (NA : ~ In "all_features"%string (featurize_with o)) by (rewrite <- Proofs_M2B.existsb_in; congruence). right.
      destruct (existsb (String.eqb "all_targets") (featurize_with o)) eqn:B; [left|right].
      + split; [exact NA|]. split; [now apply Proofs_M2B.existsb_in|reflexivity].
      + split; [exact NA|]. split; [rewrite <- Proofs_M2B.existsb_in; congruence|reflexivity].
  Qed.

  (** One entry per file and featurizer, in the order asked for, with the hyperparameters used and
      telling whether the features were computed; the matrix is made of exactly the features computed. *)
  Theorem C77_every_featurizer_accounted_for o given w w' rep :
    featurize o given w = (w', Finished rep) -> NoDup (map abspath given) ->
    (save_intermediates o = true -> forall c f g, In f (map abspath given) -> In g (map abspath given) -> intermediate o c f <> g) ->
    exists names extra cs rs bfs,
      chosen all_features all_targets (featurize_with o) names /\
      Forall2 (fun s kv => literal_eval s = Ok (Some [kv])) (with_hyperparams o) extra /\
      Forall2 asked (map (fun n => (n, None)) names ++ extra) cs /\
      Forall2 (read_as w) (map abspath given) rs /\
      map fst (f_statuses _ rep) = map abspath given /\
      Forall2 (fun r st => Forall2 (true_entry r) cs (subs _ (snd st))) rs (f_statuses _ rep) /\
      gathered (flat_map (fun r => map (pair r) cs) rs) bfs /\
      match matrix_output _ rep with
      | Some p => p = match f_output_filename o with Some f => abspath f | None => path_join (f_cwd o) (auto_name o) end /\
                  exists m t, matrix_of bfs = Ok m /\ dump_matrix m = Ok t /\ sget w' p = Some t /\ matrix_trace _ rep = None
      | None => matrix_trace _ rep <> None
      end.
  Proof.
    unfold Model_Cmd.featurize. intros F N D. destruct (mapM _ _) as [extra|] eqn:M; [|discriminate].
    destruct (resolve _ _ _ _ _ _) as [cs| |] eqn:R; try discriminate.
    destruct (each_file o (map abspath given) cs w [] []) as [w1 [[bfs st]| |]] eqn:E; try discriminate.
    exists (names_of all_features all_targets o), extra, cs.
    destruct (each_file_spec _ _ _ _ _ _ _ _ _ _ _ _ _ _ _ _ E N (fun _ _ X => X) D) as (rs & new & xs & R1 & -> & K & F2 & -> & G & U).
    exists rs, xs. split; [apply names_chosen|]. split.
    { apply mapM_ok in M. revert M. apply F2_impl. intros s kv. unfold parse_hyper. destruct (literal_eval s) as [[[|x [|y l]]|]|]; cbn; try discriminate. congruence. }
    split; [now apply resolve_spec|]. split; [exact R1|].
    unfold write_matrix in F. destruct (let! m := matrix_of _ in _) as [t|e] eqn:W.
    - injection F as <- <-. cbn. split; [exact K|]. split; [exact F2|]. split; [exact G|]. split; [reflexivity|].
      destruct (matrix_of ([] ++ xs)) as [m|] eqn:MM; cbn in W; [|discriminate]. destruct (dump_matrix m) as [t'|] eqn:DM; cbn in W; [|discriminate].
      destruct (writable _); cbn in W; [|discriminate]. injection W as ->. exists m, t. split; [exact MM|]. split; [exact DM|]. split; [apply sget_this|reflexivity].
    - destruct (f_halt o); [discriminate|]. injection F as <- <-. cbn. split; [exact K|]. split; [exact F2|]. split; [exact G|]. discriminate.
  Qed.

  (** The counts of the report. *)
  Theorem C77_report o given w w' rep : featurize o given w = (w', Finished rep) ->
    let count s := length (filter (featurized _) (subs _ s)) in
    Permutation (all_succeeded _ rep ++ some_succeeded _ rep ++ none_succeeded _ rep) (map (fun x => (fst x, count (snd x))) (f_statuses _ rep)) /\
    (exists n, (forall f k, In (f, k) (all_succeeded _ rep) -> k = n) /\
      (forall f k, In (f, k) (some_succeeded _ rep) -> k <> n /\ k <> 0%nat) /\ (forall f k, In (f, k) (none_succeeded _ rep) -> k = 0%nat)).
  Proof.
    intros F count. assert (E : exists n st out e, rep = freport_of value n st out e).
    { revert F. unfold Model_Cmd.featurize. destruct (mapM _ _); [|discriminate]. destruct (resolve _ _ _ _ _ _); try discriminate.
      destruct (each_file _ _ _ _ _ _) as [w1 [[bfs st]| |]]; try discriminate. destruct (write_matrix _ _ _ _ _ _ _ _ _) as [w2 [p|e]]; [intros [= _ <-]; eauto|].
      destruct (f_halt o); [discriminate|]. intros [= _ <-]. eauto. }
    destruct E as (n & st & out & e & ->). cbn. unfold n_success. fold count.
    change (map (fun x => (fst x, length (filter (featurized value) (subs value (snd x))))) st) with (map (fun x => (fst x, count (snd x))) st).
    set (l := map _ st). split.
    - clearbody l. clear. induction l as [|[f k] l IH]; [constructor|]. cbn [filter snd]. destruct (Nat.eqb k n), (Nat.eqb k 0); cbn [andb negb app].
      1,2: constructor; exact IH.
      + rewrite !app_assoc. rewrite <- Permutation_middle. constructor. rewrite <- app_assoc. exact IH.
      + rewrite <- Permutation_middle. constructor. exact IH.
    - exists n. split; [|split]; intros f k I; apply filter_In in I; destruct I as [_ I]; cbn in I; rewrite ?andb_true_iff, ?negb_true_iff, ?Nat.eqb_eq, ?Nat.eqb_neq in I; tauto.
  Qed.

  (** Errors of featurizers do not stop the command unless it is told to halt. *)
  Definition never_interrupted : Prop :=
    (forall f b, md5 f b <> Err KeyboardInterrupt) /\ (forall c r h, make run feat value c r h <> Err KeyboardInterrupt) /\
    (forall x, fvalidate x <> Err KeyboardInterrupt) /\ (forall x, create_features x <> Err KeyboardInterrupt) /\
    (forall x, dump_feat x <> Err KeyboardInterrupt) /\ (forall p, writable p <> Err KeyboardInterrupt).
  Lemma interrupt_is e : is_interrupt e = true -> e = KeyboardInterrupt.
  Proof. destruct e; try discriminate. cbn. intros H. apply String.eqb_eq in H. now subst. Qed.
  Theorem C77_errors_do_not_stop_it o given w cs extra :
    f_halt o = false -> never_interrupted -> NoDup (map abspath given) ->
    (save_intermediates o = true -> forall c f g, In f (map abspath given) -> In g (map abspath given) -> intermediate o c f <> g) ->
    mapM (parse_hyper value literal_eval) (with_hyperparams o) = Ok extra ->
    resolve run feat value native import_class (map (fun n => (n, None)) (names_of all_features all_targets o) ++ extra) = Finished cs ->
    (forall f, In f (map abspath given) -> exists b h r, sget w f = Some b /\ md5 f b = Ok h /\ load_processed f b = Ok r) ->
    exists w' rep, featurize o given w = (w', Finished rep).
  Proof.
    intros H (U1 & U2 & U3 & U4 & U5 & U6) N D M R X. unfold Model_Cmd.featurize. rewrite M, R.
    assert (AO : forall f r c h w w' x s e, apply_one o f r c h w = (w', x, s, Some e) -> is_interrupt e = false).
    { intros f r c h w0 w' x s e A. destruct (is_interrupt e) eqn:I; [|reflexivity]. apply interrupt_is in I. subst. exfalso. revert A. unfold Model_Cmd.apply_one.
      destruct (make _ _ _ c r h) eqn:E1; [|intros [= _ _ _ ->]; eapply U2; eassumption].
      destruct (fvalidate a) as [[[] q]|] eqn:E2; [|intros [= _ _ _ A]|intros [= _ _ _ ->]; eapply U3; eassumption].
      destruct (create_features a) eqn:E3; [|intros [= _ _ _ ->]; eapply U4; eassumption].
      destruct (save_intermediates o); [|discriminate].
      destruct (dump_feat a0) eqn:E4; cbn; [|intros [= _ _ _ ->]; eapply U5; eassumption].
      destruct (writable _) eqn:E5; cbn; [|intros [= _ _ _ ->]; eapply U6; eassumption].
      unfold md5sum. rewrite sget_this. destruct (md5 _ a1) eqn:E6; [discriminate|]. intros [= _ _ _ ->]. eapply U1. eassumption. }
    assert (AA : forall f r cs w, exists w' xs ss, apply_all o f r cs w = (w', Finished (xs, ss))).
    { clear - AO H. intros f r. induction cs as [|[c h] cs IH]; intros w; [do 3 eexists; reflexivity|]. cbn [Model_Cmd.apply_all].
      destruct (apply_one o f r c h w) as [[[w1 x] s] e] eqn:A. destruct (IH w1) as (w2 & xs & ss & E). rewrite E.
      destruct e as [e|]; [rewrite (AO _ _ _ _ _ _ _ _ _ A), H|]; do 3 eexists; reflexivity. }
    assert (G : exists w' bfs st, each_file o (map abspath given) cs w [] [] = (w', Finished (bfs, st))).
    { generalize (@nil feat), (@nil (string * fstatus value)). revert w X D N. generalize (map abspath given) as fs.
      induction fs as [|f fs IH]; intros w X D N bfs acc; [do 3 eexists; reflexivity|]. cbn [Model_Cmd.each_file].
      destruct (X f (or_introl eq_refl)) as (b & h & r & B & Hh & L). unfold md5sum. rewrite B, Hh, L.
      destruct (AA f r cs w) as (w1 & xs & ss & E). rewrite E. destruct (apply_all_spec _ _ _ _ _ _ _ _ _ _ _ _ _ _ E) as (_ & _ & P1 & P2).
      inversion N; subst. apply IH; [|intros S c g k I J; apply D; [exact S|now right|now right]|assumption].
      intros g I. assert (Eq : sget w1 g = sget w g).
      { destruct (save_intermediates o) eqn:S; [apply P1; [reflexivity|]|now rewrite P2].
        intros c _ Ex. apply (D eq_refl c f g); [now left|now right|now symmetry]. }
      rewrite Eq. apply X. now right. }
    destruct G as (w' & bfs & st & E). rewrite E. destruct (write_matrix _ _ _ _ _ _ _ _ _) as [w2 [p|e]]; [|rewrite H]; do 2 eexists; reflexivity.
  Qed.
End Featurize.

(** A small world for featurizing. *)
Definition toy_class := {| fname := "Mean"%string; defaults := [("n", 1%Z)]%string;
  make := fun (r : string) h => match sget h "n"%string with Some n => Ok (r, n) | None => Err KeyError end |}.
Definition toy_featurize := featurize (fun p => p) (fun _ b => Ok b) string (string * Z) Z (list (string * Z))
  (fun _ b => if contains "broken" b then Err ValueError else Ok b)
  (fun x => Ok (negb (contains "odd" (fst x)), ""%string)) (fun x => Ok x)
  (fun x => Ok (fst x ++ Model_Text.str_int (snd x))%string) (fun l => Ok l) (fun l => Ok (join "," (map fst l)))
  (fun _ => Ok tt) [("Mean"%string, toy_class)] ["Mean"%string] [] (fun _ => Err (OtherError "ModuleNotFoundError"))
  (fun s => if String.eqb s "{'Mean': {'n': 2}}" then Ok (Some [("Mean", Some [("n", 2%Z)])]%string)
            else if String.eqb s "{'Mean': {'n': 3}}" then Ok (Some [("Mean", Some [("n", 3%Z)])]%string) else Err ValueError).
Definition toy_fopts with_ hyp save := {| f_output_filename := None; f_output_dir := Some "/out"%string; f_cwd := "/home"%string; auto_name := "FeatureMatrix.json.gz"%string;
  featurize_with := with_; with_hyperparams := hyp; save_intermediates := save; f_halt := false |}.
Definition toy_fdisk : disk := [("/a/x.json", "abc"); ("/a/y.json", "odd"); ("/a/z.json", "broken")]%string.
Example C77_nonvacuous : exists w' rep, toy_featurize (toy_fopts ["Mean"] ["{'Mean': {'n': 2}}"] true)%string ["/a/x.json"; "/a/y.json"]%string toy_fdisk = (w', Finished rep) /\
  map fst (all_succeeded _ rep) = ["/a/x.json"]%string /\ map fst (none_succeeded _ rep) = ["/a/y.json"]%string /\ NoDup ["/a/x.json"; "/a/y.json"]%string.
Proof. do 2 eexists. split; [vm_compute; reflexivity|]. repeat split; try (vm_compute; reflexivity). repeat constructor; cbn; intuition discriminate. Qed.
(** Finding: a file that does not load ends the whole command, without a status file, although
    halt-on-error is not set: loading is outside the guarded part. *)
Theorem C77_unreadable_file_refuted : exists o w', f_halt o = false /\
  toy_featurize o ["/a/x.json"; "/a/z.json"]%string toy_fdisk = (w', Crashed ValueError).
Proof. exists (toy_fopts ["Mean"] [] false)%string. eexists. split; [reflexivity|]. vm_compute. reflexivity. Qed.
(** Finding: an unknown featurizer makes the command leave with exit code 0. *)
Theorem C77_unknown_featurizer_refuted : toy_featurize (toy_fopts ["Meen"] [] false)%string ["/a/x.json"]%string toy_fdisk = (toy_fdisk, Exited 0).
Proof. vm_compute. reflexivity. Qed.
(** Finding: the intermediate file is named after the class and the input only; applied with two sets
    of hyperparameters, both are reported saved to the same file, which holds only the last. *)
Theorem C77_intermediates_kept_refuted : exists w' rep st s1 s2,
  toy_featurize (toy_fopts [] ["{'Mean': {'n': 2}}"; "{'Mean': {'n': 3}}"] true)%string ["/a/x.json"]%string toy_fdisk = (w', Finished rep) /\
  sget (f_statuses _ rep) "/a/x.json"%string = Some st /\ subs _ st = [s1; s2] /\ featurized _ s1 = true /\ featurized _ s2 = true /\
  s_output _ s1 = s_output _ s2 /\ s_output _ s1 = Some "/out/Mean-x.json"%string /\ sget w' "/out/Mean-x.json"%string = Some "abc3"%string.
Proof. do 5 eexists. split; [vm_compute; reflexivity|]. repeat split; vm_compute; reflexivity. Qed.
(** Finding: without a file name the matrix goes to the working directory even if an output directory
    was given. *)
Theorem C77_matrix_in_output_dir_refuted : exists w' rep,
  toy_featurize (toy_fopts ["Mean"] [] false)%string ["/a/x.json"]%string toy_fdisk = (w', Finished rep) /\ matrix_output _ rep = Some "/home/FeatureMatrix.json.gz"%string.
Proof. do 2 eexists. split; vm_compute; reflexivity. Qed.

Section Train.
  Context (parse_float : string -> result Q) (strip : string -> string).
  Notation additional_kwargs := (additional_kwargs parse_float strip).
  Lemma given_names {A} n (mk : A -> kwarg) x m : In m (map fst (given n mk x)) -> m = n.
  Proof. destruct x; cbn; intuition. Qed.
  Lemma kwargs_shape o kw : additional_kwargs o = Ok kw -> exists l1,
    match l1_ratios o with None => l1 = None | Some s => exists l, mapM parse_float (str_split "," (strip s)) = Ok l /\ l1 = Some l end /\
    kw = given "train_feature_nan_thresh" KNum (train_feature_nan_thresh o) ++ given "train_sample_nan_thresh" KNum (train_sample_nan_thresh o)
        ++ given "predict_sample_nan_thresh" KNum (predict_sample_nan_thresh o)
        ++ given "drop_nan_training_targets" KFlag (Some (drop_nan_training_targets o))
        ++ given "impute_strategy" KText (impute_strategy o) ++ given "kfold" KInt (kfold o) ++ given "max_iter" KInt (max_iter o)
        ++ given "tol" KNum (tol o) ++ given "l1_ratios" KNums l1 ++ given "homogenize_features" KFlag (homogenize_features o) ++ [].
  Proof.
    unfold Model_Cmd.additional_kwargs, alphas_of. destruct (_ && _); cbn; [discriminate|]. destruct (l1_ratios o) as [t|]; cbn.
    - destruct (mapM _ _) as [l|] eqn:E; cbn; [|discriminate]. intros [= <-]. exists (Some l). split; [exists l; split; reflexivity|reflexivity].
    - intros [= <-]. exists None. split; reflexivity.
  Qed.
  Lemma given_get {A} n (mk : A -> kwarg) x l k : sget (given n mk x ++ l) k =
    if String.eqb k n then match x with Some x => Some (mk x) | None => sget l k end else sget l k.
  Proof. destruct x; cbn; [reflexivity|]. now destruct (String.eqb k n). Qed.
  Ltac look := rewrite ?given_get;
    repeat match goal with |- context [String.eqb ?a ?b] => let v := eval vm_compute in (String.eqb a b) in change (String.eqb a b) with v; cbv match end; try reflexivity.
  (** Without any alpha option the experiment keeps its own grid. *)
  Theorem C54_default_grid_partial o kw : alpha_lower o = None -> alpha_upper o = None -> n_alphas o = None ->
    additional_kwargs o = Ok kw -> sget kw "alphas"%string = None.
  Proof. intros _ _ _ K. apply kwargs_shape in K. destruct K as (l1 & _ & ->). look. Qed.
  (** Finding: the grid is never used.  All three options given (and not zero): no grid is passed on.
      Some of them missing or zero: the command fails before it trains. *)
  Theorem C54_grid_used_refuted o a b n : alpha_lower o = Some a -> alpha_upper o = Some b -> n_alphas o = Some n ->
    ~ a == 0 -> ~ b == 0 -> ~ n == 0 -> forall kw, additional_kwargs o = Ok kw -> sget kw "alphas"%string = None.
  Proof. intros _ _ _ _ _ _ kw K. apply kwargs_shape in K. destruct K as (l1 & _ & ->). look. Qed.
  Theorem C54_lower_zero_refuted o b n : alpha_lower o = Some 0 -> alpha_upper o = Some b -> n_alphas o = Some n ->
    ~ b == 0 -> additional_kwargs o = Err TypeError.
  Proof.
    intros A B C N. unfold Model_Cmd.additional_kwargs, alphas_of. rewrite A, B, C. cbn [existsb forallb truthy].
    assert (E : Qeq_bool b 0 = false) by (destruct (Qeq_bool b 0) eqn:E; [apply Qeq_bool_iff in E; contradiction|reflexivity]).
    rewrite E. reflexivity.
  Qed.

  Section Fit.
  Context {model : Type} (fit : list (string * kwarg) -> result model) (dump_model : model -> result string).
  Notation train := (train parse_float strip model fit dump_model).
  (** The other options reach the experiment under the names it knows, with the values given. *)
  Theorem C78_options_reach_the_experiment_partial o kw :
    train_feature_nan_thresh o = None -> train_sample_nan_thresh o = None -> l1_ratios o = None -> additional_kwargs o = Ok kw ->
    call_with fit kw = fit kw /\
    sget kw "predict_sample_nan_thresh"%string = option_map KNum (predict_sample_nan_thresh o) /\
    sget kw "drop_nan_training_targets"%string = Some (KFlag (drop_nan_training_targets o)) /\
    sget kw "impute_strategy"%string = option_map KText (impute_strategy o) /\
    sget kw "kfold"%string = option_map KInt (kfold o) /\ sget kw "max_iter"%string = option_map KInt (max_iter o) /\
    sget kw "tol"%string = option_map KNum (tol o) /\ sget kw "homogenize_features"%string = option_map KFlag (homogenize_features o) /\
    (forall n, In n (map fst kw) -> In n accepted).
  Proof.
    intros A B C K. apply kwargs_shape in K. rewrite C in K. destruct K as (l1 & -> & ->). rewrite A, B.
    assert (ACC : forall l, (forall n, In n (map fst l) -> In n accepted) -> call_with fit l = fit l).
    { intros l H. unfold call_with. replace (forallb _ l) with true; [reflexivity|]. symmetry. apply forallb_forall. intros k I.
      unfold str_in. apply Proofs_M2B.existsb_in. apply H. now apply in_map. }
    match goal with |- call_with fit ?k = _ /\ _ => assert (NN : forall n, In n (map fst k) -> In n accepted) end.
    { intros n. rewrite !map_app, !in_app_iff. intros I. repeat (destruct I as [I|I]; [first [destruct I; fail | apply given_names in I; subst; cbn; tauto]|]). destruct I. }
    split; [now apply ACC|]. repeat match goal with |- _ /\ _ => split end; try exact NN; look; match goal with |- context [match ?x with _ => _ end] => now destruct x end.
  Qed.
  (** Finding: the two training thresholds and the l1 ratios are passed on under names the experiment
      does not know; with any of them the training fails, whatever the data. *)
  Theorem C78_thresholds_refuted o kw :
    train_feature_nan_thresh o <> None \/ train_sample_nan_thresh o <> None \/ l1_ratios o <> None -> additional_kwargs o = Ok kw ->
    call_with fit kw = Err TypeError.
  Proof.
    intros H K. apply kwargs_shape in K. destruct K as (l1 & L & ->). unfold call_with.
    match goal with |- (if forallb ?f ?l then _ else _) = _ => assert (E : forallb f l = false) end; [|now rewrite E].
    rewrite !forallb_app. destruct (train_feature_nan_thresh o); [reflexivity|]. destruct (train_sample_nan_thresh o); [reflexivity|].
    destruct (l1_ratios o) as [t|]; [|tauto]. destruct L as (l & _ & ->). cbn [given forallb fst str_in accepted existsb String.eqb Ascii.eqb Bool.eqb andb orb].
    rewrite !andb_false_r. reflexivity.
  Qed.
  (** The model is reported created exactly when training succeeded, and then the file holds it. *)
  Theorem C78_model_written o halt out writable w w' t : train o halt out writable w = (w', Finished t) ->
    (t_created t = true <-> exists kw m, additional_kwargs o = Ok kw /\ call_with fit kw = Ok m) /\
    (t_created t = true -> t_output t = Some out /\ t_trace t = None /\
       exists kw m b, additional_kwargs o = Ok kw /\ fit kw = Ok m /\ dump_model m = Ok b /\ sget w' out = Some b) /\
    (t_created t = false -> t_output t = None /\ t_trace t <> None /\ w' = w).
  Proof.
    unfold Model_Cmd.train. destruct (additional_kwargs o) as [kw|] eqn:K; [|discriminate].
    destruct (call_with fit kw) as [m|e] eqn:C.
    - destruct (dump_model m) as [b|] eqn:D; cbn; [|discriminate]. destruct (writable out); cbn; [|discriminate]. intros [= <- <-]. cbn.
      split; [split; [eauto|reflexivity]|]. split; [|discriminate]. intros _. split; [reflexivity|]. split; [reflexivity|].
      exists kw, m, b. split; [reflexivity|]. split; [|split; [exact D|apply sget_this]]. unfold call_with in C. destruct (forallb _ kw); [exact C|discriminate].
    - destruct (is_interrupt e); [discriminate|]. destruct halt; [discriminate|]. intros [= <- <-]. cbn.
      split; [split; [discriminate|]|split; [discriminate|]].
      + intros (kw' & m & K' & C'). congruence.
      + intros _. split; [reflexivity|]. split; [discriminate|reflexivity].
  Qed.
  End Fit.
End Train.
Definition plain_training : train_options :=
  {| alpha_lower := None; alpha_upper := None; n_alphas := None; train_feature_nan_thresh := None; train_sample_nan_thresh := None;
     predict_sample_nan_thresh := Some (1 # 2); drop_nan_training_targets := true; impute_strategy := Some "mean"%string; kfold := Some 3%Z;
     max_iter := None; tol := None; l1_ratios := None; homogenize_features := Some false |}.
Example C78_nonvacuous : exists kw, additional_kwargs (fun _ => Err ValueError) (fun s => s) plain_training = Ok kw /\ sget kw "kfold"%string = Some (KInt 3).
Proof. eexists. split; vm_compute; reflexivity. Qed.
Example C54_nonvacuous : exists kw, additional_kwargs (fun _ => Err ValueError) (fun s => s)
  {| alpha_lower := Some 1; alpha_upper := Some 2; n_alphas := Some 5; train_feature_nan_thresh := None; train_sample_nan_thresh := Some (1 # 2);
     predict_sample_nan_thresh := None; drop_nan_training_targets := true; impute_strategy := None; kfold := None;
     max_iter := None; tol := None; l1_ratios := None; homogenize_features := None |} = Ok kw /\ sget kw "alphas"%string = None.
Proof. eexists. split; vm_compute; reflexivity. Qed.

(** `beep predict` uses the threshold given, or the model's own without one. *)
Theorem C79_threshold_partial given m : threshold_used given m = match given with Some x => if Qeq_bool x 0 then m else x | None => m end.
Proof. destruct given as [x|]; [|reflexivity]. unfold threshold_used, truthy. now destruct (Qeq_bool x 0). Qed.
(** Finding: 0 ("samples are never dropped") is taken for no threshold. *)
Theorem C79_threshold_zero_refuted m : ~ m == 0 -> ~ threshold_used (Some 0) m == 0.
Proof. intros N. exact N. Qed.
Example C79_nonvacuous : threshold_used (Some (1 # 2)) (3 # 4) == 1 # 2 /\ threshold_used (Some 0) (3 # 4) == 3 # 4.
Proof. split; reflexivity. Qed.

(** Every file the generator returns is recorded as generated, nothing else is, and an error of the
    generator leaves a traceback. *)
Theorem C53_generated_files_partial r :
  (forall f, In f (Model_Generate.made_files r) <-> sget (protocol_files (protocol (Ok r))) f = Some true) /\
  (p_trace (protocol (Ok r)) <> None <-> Model_Generate.res r = "error"%string).
Proof.
  cbn. split.
  - intros f. assert (M : forall l d, sget (fold_left (fun d f => sset d f true) l d) f = Some true <-> In f l \/ sget d f = Some true).
    { induction l as [|g l IH]; intros d; cbn [fold_left]; [cbn; tauto|]. rewrite IH. destruct (String.eqb_spec g f) as [->|N].
      - rewrite sget_this. cbn. tauto.
      - rewrite sget_other by exact N. cbn. split; [tauto|]. intros [[E|I]|I]; tauto. }
    rewrite M. cbn. split; [tauto|]. intros [I|I]; [exact I|discriminate].
  - destruct (String.eqb_spec (Model_Generate.res r) "error"); cbn; split; congruence.
Qed.
Theorem C53_exception_recorded e : p_trace (protocol (Err e)) = Some e.
Proof. reflexivity. Qed.
(** Finding: the failures the generator returns are bound to a name that is not the one the status is
    written from: no failed file is ever recorded. *)
Theorem C53_failures_recorded_refuted x : forall f b, sget (protocol_files (protocol x)) f = Some b -> b = true.
Proof.
  destruct x as [r|e]; cbn; [|discriminate]. intros f b.
  assert (M : forall l d, (forall b, sget d f = Some b -> b = true) -> sget (fold_left (fun d f => sset d f true) l d) f = Some b -> b = true).
  { induction l as [|g l IH]; intros d H; cbn [fold_left]; [apply H|]. apply IH. intros c. destruct (String.eqb_spec g f) as [->|N]; [rewrite sget_this; congruence|rewrite sget_other by exact N; apply H]. }
  apply M. discriminate.
Qed.
Example C53_nonvacuous : protocol (Ok {| Model_Generate.made_files := ["a.000"]; Model_Generate.failures := [("Unable to find template: x", "Not Found")];
    Model_Generate.res := "error"; Model_Generate.comment := ""; Model_Generate.error := "" |})%string
  = {| protocol_files := [("a.000"%string, true)]; p_trace := Some ProtocolException |}.
Proof. vm_compute. reflexivity. Qed.

Print Assumptions C52_every_file_accounted_for.
Print Assumptions C52_errors_do_not_stop_it.
Print Assumptions C52_halt_on_error.
Print Assumptions C52_report.
Print Assumptions C52_validation_only.
Print Assumptions C52_automatic_names.
Print Assumptions C52_automatic_names_distinct.
Print Assumptions C52_outputs_kept_refuted.
Print Assumptions C52_totals_refuted.
Print Assumptions C52_valid_not_failed_refuted.
Print Assumptions C52_invalid_was_checked_refuted.
Print Assumptions C52_interrupt_code_refuted.
Print Assumptions C77_every_featurizer_accounted_for.
Print Assumptions C77_report.
Print Assumptions C77_errors_do_not_stop_it.
Print Assumptions C77_unreadable_file_refuted.
Print Assumptions C77_unknown_featurizer_refuted.
Print Assumptions C77_intermediates_kept_refuted.
Print Assumptions C77_matrix_in_output_dir_refuted.
Print Assumptions C54_default_grid_partial.
Print Assumptions C54_grid_used_refuted.
Print Assumptions C54_lower_zero_refuted.
Print Assumptions C78_options_reach_the_experiment_partial.
Print Assumptions C78_thresholds_refuted.
Print Assumptions C78_model_written.
Print Assumptions C79_threshold_partial.
Print Assumptions C79_threshold_zero_refuted.
Print Assumptions C53_generated_files_partial.
Print Assumptions C53_exception_recorded.
Print Assumptions C53_failures_recorded_refuted.
