(** Lemmas for C116-C118: reading what was written. *)
From Verif Require Import Py Proofs_Diagnostic Proofs_Strings Model_Arbin Spec_Arbin Proofs_Arbin Model_Procedure Model_MaccorFile Spec_MaccorFile Proofs_MaccorFile Proofs_MaccorFile_Text.
Local Open Scope string_scope.

Lemma run_open k s acc st item data : field_name k -> ws acc -> (st = [] -> item = None) ->
  exists x, ws x /\ run ("<" ++ k ++ ">" ++ s) acc st item data = run s "" ((k, item, data ++ x) :: st) None "".
Proof.
  intros N W Z. destruct (name_ok k N) as (_ & F & G & _).
  destruct (run_tag k s acc st item data _ F G W (tag_open k N)) as (x & X & E). exists x. split; [exact X|]. rewrite E. unfold run.
  destruct (lex s "" false) as [ts|e]; [|reflexivity]. cbn [bind app handle]. destruct st as [|f st]; [rewrite Z by reflexivity; reflexivity|reflexivity].
Qed.
Lemma run_close k s acc st i0 d0 item data : field_name k -> ws acc ->
  exists x, ws x /\ run ("</" ++ k ++ ">" ++ s) acc ((k, i0, d0) :: st) item data = run s "" st (push_data i0 k (finished item (data ++ x))) d0.
Proof.
  intros N W. destruct (name_ok k N) as (_ & F & G & _).
  destruct (run_tag (String "/" k) s acc ((k, i0, d0) :: st) item data [Close k]) with (4 := tag_close k N) as (x & X & E); [split; [discriminate|exact F]|split; [discriminate|exact G]|exact W|].
  exists x. split; [exact X|]. change ("</" ++ k ++ ">" ++ s) with ("<" ++ String "/" k ++ ">" ++ s). rewrite E. unfold run.
  destruct (lex s "" false) as [ts|e]; [|reflexivity]. cbn [bind app handle]. rewrite String.eqb_refl. reflexivity.
Qed.
Lemma run_close_text k s t st i0 d0 : field_name k -> t <> "" -> legal_text t ->
  run ("</" ++ k ++ ">" ++ s) (escape t) ((k, i0, d0) :: st) None "" = run s "" st (push_data i0 k (finished None t)) d0.
Proof.
  intros N NE L. destruct (name_ok k N) as (_ & F & G & _).
  assert (C : chars (escape t) = Ok [Chars t]).
  { destruct (escape_nonempty t NE) as (c & r & E & _). unfold chars. rewrite (unescape_escape t L), E. reflexivity. }
  unfold run. change ("</" ++ k ++ ">" ++ s) with (String "<" (String "/" k ++ ">" ++ s)). cbn [lex]. rewrite Ascii.eqb_refl, C.
  rewrite lex_tag; [|split; [discriminate|exact F]|split; [discriminate|exact G]].
  change ("" ++ String "/" k) with (String "/" k). rewrite (tag_close k N). cbn [bind]. destruct (lex s "" false) as [ts|e]; [|reflexivity].
  cbn [bind app handle append]. rewrite String.eqb_refl. reflexivity.
Qed.
Lemma run_short k s acc st item data : field_name k -> ws acc -> (st = [] -> item = None) ->
  exists x, ws x /\ run ("<" ++ k ++ "/>" ++ s) acc st item data = run s "" st (push_data item k VNone) (data ++ x).
Proof.
  intros N W Z. destruct (name_ok k N) as (_ & F & G & _).
  destruct (run_tag (k ++ "/") s acc st item data [Open k; Close k]) with (4 := tag_short k N) as (x & X & E); [apply free_app; split; [exact F|split; [discriminate|exact Logic.I]]|apply free_app; split; [exact G|split; [discriminate|exact Logic.I]]|exact W|].
  exists x. split; [exact X|]. replace ("<" ++ k ++ "/>" ++ s) with ("<" ++ (k ++ "/") ++ ">" ++ s) by (rewrite !app_assoc_s; reflexivity).
  rewrite E. unfold run. destruct (lex s "" false) as [ts|e]; [|reflexivity]. cbn [bind app handle].
  destruct st as [|f st]; [rewrite Z by reflexivity|]; rewrite String.eqb_refl; reflexivity.
Qed.

Definition opt {A} (l : list A) : option (list A) := match l with [] => None | _ => Some l end.
Definition not_list (v : val) : Prop := forall l, v <> VList l.
Lemma push_fresh prev k v : ~ In k (map fst prev) -> push_data (opt prev) k v = Some (prev ++ [(k, v)])%list.
Proof.
  intro F. unfold push_data. replace (match opt prev with Some d => d | None => [] end) with prev by (destruct prev; reflexivity).
  rewrite (sget_new _ _ F), (sset_new _ _ _ F). reflexivity.
Qed.
Lemma push_second prev k v w : ~ In k (map fst prev) -> not_list v -> push_data (Some (prev ++ [(k, v)])%list) k w = Some (prev ++ [(k, VList [v; w])])%list.
Proof.
  intros F N. unfold push_data. rewrite (sget_mid prev [] k v F). destruct v; try (rewrite (sset_mid prev [] k _ _ F); reflexivity). destruct (N l). reflexivity.
Qed.
Lemma push_more prev k l w : ~ In k (map fst prev) -> push_data (Some (prev ++ [(k, VList l)])%list) k w = Some (prev ++ [(k, VList (l ++ [w]))])%list.
Proof. intros F. unfold push_data. rewrite (sget_mid prev [] k _ F), (sset_mid prev [] k _ _ F). reflexivity. Qed.

Section Read.
  Variable show : val -> string.
  Hypothesis P : prints show.
  Definition text_value (s : string) : val := match strip s with EmptyString => VNone | t => VText t end.
  (** what comes back *)
  Fixpoint norm (v : val) : val :=
    match v with
    | VNone => VNone
    | VText s => text_value s
    | VNum q => text_value (show v)
    | VDict d => VDict (map (fun kv => (fst kv, norm (snd kv))) d)
    | VList l => VList (map norm l)
    end.
  Lemma text_not_list s : not_list (text_value s).
  Proof. intros l. unfold text_value. destruct (strip s); discriminate. Qed.
  Lemma norm_not_list v : not_list v -> not_list (norm v).
  Proof. destruct v; intros H l'; cbn; try discriminate; try apply text_not_list. destruct (H l). reflexivity. Qed.
  Lemma shaped_not_list T v : shaped T v -> not_list v.
  Proof. intros S l E. subst v. inversion S. Qed.
  Lemma finished_ws d x : ws x -> finished (Some d) x = VDict d.
  Proof. intro W. unfold finished. rewrite (strip_ws _ W). reflexivity. Qed.
  Lemma finished_text s : finished None s = text_value s.
  Proof. unfold finished, text_value. destruct (strip s); reflexivity. Qed.
  Lemma finished_none x : ws x -> finished None x = VNone.
  Proof. intro W. unfold finished. rewrite (strip_ws _ W). reflexivity. Qed.

  Lemma read_text short d k t : field_name k -> t <> "" -> legal_text t -> forall s acc st item data, ws acc -> ws data -> (st = [] -> item = None) ->
    exists acc' data', ws acc' /\ ws data' /\ run (elementS short d k (escape t) ++ s) acc st item data = run s acc' st (push_data item k (text_value t)) data'.
  Proof.
    intros N NE L s acc st item data WA WD Z. unfold elementS. destruct (escape_nonempty t NE) as (c & r & E & _).
    replace (String.eqb (escape t) "") with false by (rewrite E; reflexivity). cbn [andb]. rewrite element_eq.
    rewrite run_text by (apply indent_free; discriminate).
    destruct (run_open k (escape t ++ "</" ++ k ++ ">" ++ eol d ++ s) (acc ++ indent d) st item data N) as (x & X & E1); [apply ws_app; split; [exact WA|apply ws_blank]|exact Z|].
    rewrite E1, run_text by apply escape_free. change ("" ++ escape t) with (escape t).
    rewrite (run_close_text k (eol d ++ s) t _ _ _ N NE L), finished_text, run_text by (apply eol_free; discriminate).
    exists (eol d), (data ++ x). split; [apply eol_ws|]. split; [apply ws_app; auto|]. reflexivity.
  Qed.

  Lemma read_none short dd k : field_name k -> forall s acc st item data, ws acc -> ws data -> (st = [] -> item = None) ->
    exists acc' data', ws acc' /\ ws data' /\ run (elementS short dd k "" ++ s) acc st item data = run s acc' st (push_data item k VNone) data'.
  Proof.
    intro N.
    intros s acc st item data WA WD Z. unfold elementS. cbn [String.eqb andb]. destruct (str_in k short).
      + rewrite !app_assoc_s, run_text by (apply indent_free; discriminate).
        destruct (run_short k (eol dd ++ s) (acc ++ indent dd) st item data N) as (x & X & E); [apply ws_app; split; [exact WA|apply ws_blank]|exact Z|].
        rewrite E, run_text by (apply eol_free; discriminate).
        exists (eol dd), (data ++ x). split; [apply eol_ws|]. split; [apply ws_app; auto|reflexivity].
      + rewrite element_eq, run_text by (apply indent_free; discriminate).
        destruct (run_open k ("" ++ "</" ++ k ++ ">" ++ eol dd ++ s) (acc ++ indent dd) st item data N) as (x & X & E1); [apply ws_app; split; [exact WA|apply ws_blank]|exact Z|].
        rewrite E1. cbn [append]. destruct (run_close k (eol dd ++ s) "" st item (data ++ x) None "" N Logic.I) as (y & Y & E2). cbn [append] in E2. rewrite E2.
        rewrite run_text by (apply eol_free; discriminate). rewrite finished_none by exact Y.
        exists (eol dd), (data ++ x). split; [apply eol_ws|]. split; [apply ws_app; auto|reflexivity].
  Qed.
  Lemma read_emit v : shaped legal_text v -> forall short d k, field_name k -> forall s acc st item data, ws acc -> ws data -> (st = [] -> item = None) ->
    exists acc' data', ws acc' /\ ws data' /\ run (emitS show short d k v ++ s) acc st item data = run s acc' st (push_data item k (norm v)) data'.
  Proof.
    induction v using val_nested; intros SH short dd k N; cbn [emitS norm].
    - apply read_none, N.
    - inversion SH; subst. destruct (String.eqb_spec s ""); [subst s; apply read_none, N|]. apply read_text; assumption.
    - apply read_text; [assumption|apply P|apply P].
    - inversion SH as [| | |? NE ND IN]; subst. destruct d as [|kv e]; [congruence|]. clear NE.
      intros s acc st item data WA WD Z. fold (fieldS show short (S dd)).
      match goal with |- context [elementS short dd k ?b] => replace (elementS short dd k b) with (element dd k b) by reflexivity end.
      rewrite element_eq, run_text by (apply indent_free; discriminate).
      match goal with |- context [run ("<" ++ k ++ ">" ++ ?b) _ _ _ _] => destruct (run_open k b (acc ++ indent dd) st item data N) as (x & X & E1); [apply ws_app; split; [exact WA|apply ws_blank]|exact Z|] end.
      rewrite E1. clear E1. rewrite !app_assoc_s.
      rewrite (run_text (String nl "")) by (split; [discriminate|exact Logic.I]).
      set (st' := (k, item, data ++ x) :: st).
      assert (L : forall e' prev, (forall kv', In kv' e' -> In kv' (kv :: e)) -> NoDup (map fst prev ++ map fst e')%list ->
                 forall u a y, ws a -> ws y -> exists a' y', ws a' /\ ws y' /\
                   run (String.concat "" (map (fieldS show short (S dd)) e') ++ u) a st' (opt prev) y =
                   run u a' st' (opt (prev ++ map (fun kv => (fst kv, norm (snd kv))) e')%list) y').
      { induction e' as [|[k' w] e' IHe]; intros prev J NDP u a y WA' WY.
        - exists a, y. rewrite app_nil_r. auto.
        - cbn [map]. rewrite concat_cons, app_assoc_s.
          assert (A : In (k', w) (kv :: e)) by (apply J; left; reflexivity). destruct (IN _ _ A) as [K' W].
          cbn [map fst] in NDP. assert (FR : ~ In k' (map fst prev)). { apply NoDup_remove_2 in NDP. intro Q. apply NDP, in_or_app. left; exact Q. }
          assert (NDP' : NoDup (map fst (prev ++ [(k', norm w)])%list ++ map fst e')%list) by (rewrite map_app, <- app_assoc; exact NDP).
          specialize (IHe (prev ++ [(k', norm w)])%list (fun x Hx => J x (or_intror Hx)) NDP' u).
          assert (O : opt (prev ++ [(k', norm w)])%list = Some (prev ++ [(k', norm w)])%list) by (destruct prev; reflexivity).
          rewrite <- app_assoc in IHe. cbn [app] in IHe. cbn [fst snd].
          rewrite Forall_forall in H. pose proof (H _ A) as HW. cbn [snd] in HW.
          inversion W as [? W1|l L2 WL]; subst.
          + assert (F : fieldS show short (S dd) (k', w) = emitS show short (S dd) k' w) by (destruct w; try reflexivity; inversion W1). rewrite F.
            destruct (HW W1 short (S dd) k' K' (String.concat "" (map (fieldS show short (S dd)) e') ++ u) a st' (opt prev) y WA' WY) as (a1 & y1 & WA1 & WY1 & E); [discriminate|].
            rewrite E, (push_fresh _ _ _ FR), <- O. apply IHe; assumption.
          + cbn [fieldS]. specialize (H0 _ _ A). rewrite Forall_forall in H0. clear HW W A J IN.
            destruct l as [|v1 [|v2 l]]; try (cbn in L2; lia). clear L2.
            assert (LL : forall l' pre, (forall z, In z l' -> In z (v1 :: v2 :: l)) -> (2 <= length pre)%nat -> forall u a y, ws a -> ws y -> exists a' y', ws a' /\ ws y' /\
                       run (String.concat "" (map (emitS show short (S dd) k') l') ++ u) a st' (Some (prev ++ [(k', VList pre)])%list) y =
                       run u a' st' (Some (prev ++ [(k', VList (pre ++ map norm l'))])%list) y').
            { induction l' as [|z l' IHl]; intros pre J L2 u0 a0 y0 WA0 WY0.
              - exists a0, y0. rewrite app_nil_r. auto.
              - cbn [map]. rewrite concat_cons, app_assoc_s. assert (A : In z (v1 :: v2 :: l)) by (apply J; left; reflexivity).
                destruct (H0 z A (WL z A) short (S dd) k' K' (String.concat "" (map (emitS show short (S dd) k') l') ++ u0) a0 st' (Some (prev ++ [(k', VList pre)])%list) y0 WA0 WY0) as (a1 & y1 & WA1 & WY1 & E); [discriminate|].
                rewrite E, (push_more _ _ _ _ FR). destruct (IHl (pre ++ [norm z])%list (fun x Hx => J x (or_intror Hx))) with (u := u0) (a := a1) (y := y1) as (a2 & y2 & WA2 & WY2 & E2); [rewrite app_length; lia|assumption|assumption|].
                exists a2, y2. rewrite E2, <- app_assoc. auto. }
            assert (I1 : In v1 (v1 :: v2 :: l)) by (left; reflexivity). assert (I2 : In v2 (v1 :: v2 :: l)) by (right; left; reflexivity).
            cbn [map]. rewrite !concat_cons, !app_assoc_s.
            destruct (H0 v1 I1 (WL v1 I1) short (S dd) k' K' (emitS show short (S dd) k' v2 ++ String.concat "" (map (emitS show short (S dd) k') l) ++ String.concat "" (map (fieldS show short (S dd)) e') ++ u) a st' (opt prev) y WA' WY) as (a1 & y1 & WA1 & WY1 & E1); [discriminate|].
            rewrite E1, (push_fresh _ _ _ FR).
            destruct (H0 v2 I2 (WL v2 I2) short (S dd) k' K' (String.concat "" (map (emitS show short (S dd) k') l) ++ String.concat "" (map (fieldS show short (S dd)) e') ++ u) a1 st' (Some (prev ++ [(k', norm v1)])%list) y1 WA1 WY1) as (a2 & y2 & WA2 & WY2 & E2); [discriminate|].
            rewrite E2, (push_second _ _ _ _ FR) by (apply norm_not_list; eapply shaped_not_list; apply (WL v1 I1)).
            destruct (LL l [norm v1; norm v2] (fun z Hz => or_intror (or_intror Hz)) (le_n 2) (String.concat "" (map (fieldS show short (S dd)) e') ++ u) a2 y2 WA2 WY2) as (a3 & y3 & WA3 & WY3 & E3).
            rewrite E3. cbn [norm map app] in *. rewrite <- O. apply IHe; assumption. }
      destruct (L (kv :: e) []) with (u := indent dd ++ "</" ++ k ++ ">" ++ eol dd ++ s) (a := "" ++ String nl "") (y := "") as (a1 & y1 & WA1 & WY1 & E1); [auto|exact ND|cbn; auto|exact Logic.I|].
      cbn [opt app] in E1. rewrite E1. rewrite run_text by (apply indent_free; discriminate).
      destruct (run_close k (eol dd ++ s) (a1 ++ indent dd) st item (data ++ x) (opt (map (fun kv => (fst kv, norm (snd kv))) (kv :: e))) y1 N) as (z & WZ & E2); [apply ws_app; split; [exact WA1|apply ws_blank]|].
      unfold st'. cbn [map opt] in *. rewrite E2. rewrite finished_ws by (apply ws_app; auto).
      rewrite run_text by (apply eol_free; discriminate).
      exists (eol dd), (data ++ x). split; [apply eol_ws|]. split; [apply ws_app; auto|reflexivity].
    - inversion SH.
  Qed.
End Read.
