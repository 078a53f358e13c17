(** Lemmas for C116-C118: the lines of a file, and writing what was read. *)
From Verif Require Import Py Proofs_Diagnostic Proofs_Strings Model_Arbin Spec_Arbin Proofs_Arbin Model_Procedure Model_MaccorFile Spec_MaccorFile Proofs_MaccorFile Proofs_MaccorFile_Text Proofs_MaccorFile_Read Proofs_MaccorFile_Main Proofs_MaccorFile_File.
Local Open Scope string_scope.

Definition cat (ls : list string) : string := String.concat "" (map (fun l => l ++ String nl "") ls).
Lemma cat_app a b : cat (a ++ b) = cat a ++ cat b.
Proof. unfold cat. rewrite map_app. apply concat_app. Qed.
Lemma cat_cons l ls : cat (l :: ls) = l ++ String nl "" ++ cat ls.
Proof. unfold cat. cbn [map]. rewrite concat_cons, app_assoc_s. reflexivity. Qed.
Lemma cat_one l : cat [l] = l ++ String nl "".
Proof. reflexivity. Qed.
Lemma join_cat ls : join (String nl "") (ls ++ [""])%list = cat ls.
Proof.
  induction ls as [|l ls IH]; [reflexivity|]. rewrite cat_cons, <- IH. cbn [app]. destruct (ls ++ [""])%list eqn:E; [destruct ls; discriminate E|]. rewrite join_cons. reflexivity.
Qed.

Section Lines.
  Variable show : val -> string.
  Hypothesis P : prints show.
  Notation tl d := (if (d =? 0)%nat then String nl "" else "").
  Lemma eol_tl d : eol d ++ tl d = String nl "".
  Proof. unfold eol. destruct (d =? 0)%nat; reflexivity. Qed.
  Lemma element_line short d k b : str_in k short = false \/ b <> "" -> elementS short d k b ++ tl d = (margin d ++ "<" ++ k ++ ">" ++ b ++ "</" ++ k ++ ">") ++ String nl "".
  Proof.
    intro H. assert (E : elementS short d k b = element d k b). { unfold elementS. destruct (String.eqb_spec b ""); [|reflexivity]. destruct H as [-> |]; [reflexivity|contradiction]. }
    rewrite E, element_eq, eol_tl. unfold margin, indent. change spaces with blank. rewrite !app_assoc_s. reflexivity.
  Qed.
  Lemma shorts_in k : str_in k shorts = true <-> In k abbreviated.
  Proof.
    unfold str_in. rewrite existsb_exists. split.
    - intros (x & I & E). apply String.eqb_eq in E. subst x. cbn in *. tauto.
    - intro I. exists k. rewrite String.eqb_refl. cbn in *. tauto.
  Qed.
  Lemma emit_lines v : shaped legal_text v -> forall d k, exists ls, lines show d k v ls /\ emitS show shorts d k v ++ tl d = cat ls.
  Proof.
    induction v using val_nested; intros S dd k; inversion S as [| |? LT|? NE ND IN]; subst.
    - destruct (str_in k shorts) eqn:E.
      + exists [(margin dd ++ "<" ++ k ++ "/>")]. split; [apply lines_none_short; [left; reflexivity|apply shorts_in, E]|]. rewrite cat_one. cbn [emitS]. unfold elementS. rewrite E. cbn [String.eqb andb].
        rewrite !app_assoc_s, eol_tl. reflexivity.
      + exists [(margin dd ++ "<" ++ k ++ "></" ++ k ++ ">")]. split; [apply lines_none; [left; reflexivity|rewrite <- shorts_in, E; discriminate]|]. rewrite cat_one. cbn [emitS]. rewrite element_line by (left; exact E).
        rewrite !app_assoc_s. reflexivity.
    - destruct (String.eqb_spec s "") as [-> | NE].
      { destruct (str_in k shorts) eqn:E.
        + exists [(margin dd ++ "<" ++ k ++ "/>")]. split; [apply lines_none_short; [right; reflexivity|apply shorts_in, E]|]. rewrite cat_one. cbn [emitS escape]. unfold elementS. rewrite E. cbn [String.eqb andb].
          rewrite !app_assoc_s, eol_tl. reflexivity.
        + exists [(margin dd ++ "<" ++ k ++ "></" ++ k ++ ">")]. split; [apply lines_none; [right; reflexivity|rewrite <- shorts_in, E; discriminate]|]. rewrite cat_one. cbn [emitS escape]. rewrite element_line by (left; exact E).
          rewrite !app_assoc_s. reflexivity. }
      eexists. split; [apply lines_text, NE|]. rewrite cat_one. cbn [emitS]. rewrite element_line; [rewrite escape_marked; reflexivity|]. right. destruct (escape_nonempty s NE) as (c & r & -> & _). discriminate.
    - eexists. split; [apply lines_num|]. rewrite cat_one. cbn [emitS]. rewrite element_line; [rewrite escape_marked; reflexivity|]. right. destruct (escape_nonempty _ (proj2 (P q))) as (c & r & -> & _). discriminate.
    - destruct d as [|kv e]; [congruence|]. rewrite emitS_dict.
      assert (L : forall e', (forall x, In x e' -> In x (kv :: e)) -> exists ls, fields_lines show (Datatypes.S dd) e' ls /\ String.concat "" (map (fieldS show shorts (Datatypes.S dd)) e') = cat ls).
      { induction e' as [|[k' w] e' IHe]; intro J; [exists []; split; [constructor|reflexivity]|].
        destruct IHe as (lb & FB & EB); [auto using in_cons|]. assert (A : In (k', w) (kv :: e)) by (apply J; left; reflexivity). destruct (IN _ _ A) as [K' W].
        rewrite Forall_forall in H. pose proof (H _ A) as HW. cbn [snd] in HW. cbn [map]. rewrite concat_cons, EB. inversion W as [? W1|l L2 WL]; subst.
        - destruct (HW W1 (Datatypes.S dd) k') as (la & LA & EA). cbn [Nat.eqb] in EA. rewrite app_nil_s in EA. exists (la ++ lb)%list. split; [apply fields_one; assumption|].
          rewrite cat_app, <- EA. destruct w; try reflexivity. inversion W1.
        - specialize (H0 _ _ A). rewrite Forall_forall in H0. cbn [fieldS].
          assert (M : exists la, each_lines show (Datatypes.S dd) k' l la /\ String.concat "" (map (emitS show shorts (Datatypes.S dd) k') l) = cat la).
          { clear - H0 WL P. induction l as [|z l IHl]; [exists []; split; [constructor|reflexivity]|].
            destruct IHl as (lb & FB & EB); [intros; apply H0; auto using in_cons|intros; apply WL; auto using in_cons|].
            destruct (H0 z (or_introl eq_refl) (WL z (or_introl eq_refl)) (Datatypes.S dd) k') as (la & LA & EA). cbn [Nat.eqb] in EA. rewrite app_nil_s in EA.
            exists (la ++ lb)%list. split; [constructor; assumption|]. cbn [map]. rewrite concat_cons, EA, EB, cat_app. reflexivity. }
          destruct M as (la & LA & EA). exists (la ++ lb)%list. split; [apply fields_many; assumption|]. rewrite cat_app, EA. reflexivity. }
      destruct (L (kv :: e)) as (ls & FL & EL); [auto|]. eexists. split; [apply lines_dict; exact FL|].
      rewrite EL, element_eq, eol_tl, cat_cons, cat_app, cat_one. unfold margin, indent. change spaces with blank. rewrite !app_assoc_s. reflexivity.
  Qed.
  Lemma file_text root : shaped legal_text root -> exists ls, file_lines show (VDict [("MaccorTestProcedure", root)]) ls /\
    (head ++ emitS show shorts 0 "MaccorTestProcedure" root ++ String nl "") = join (String nl "") ls.
  Proof.
    intro S. destruct (emit_lines root S 0 "MaccorTestProcedure") as (body & L & E). cbn [Nat.eqb] in E. eexists. split; [exists root, body; split; [reflexivity|]; split; [exact L|reflexivity]|].
    rewrite app_assoc, join_cat, cat_app, <- E. unfold head. rewrite !app_assoc_s. reflexivity.
  Qed.

  (** ** Writing what was read *)
  Fixpoint numbers_as_text (v : val) : val :=
    match v with
    | VNum q => VText (show v)
    | VDict d => VDict (map (fun kv => (fst kv, numbers_as_text (snd kv))) d)
    | VList l => VList (map numbers_as_text l)
    | _ => v
    end.
  Notation back := numbers_as_text.
  Lemma back_elements short v : forall d k, shaped legal_text v -> emitS show short d k (back v) = emitS show short d k v.
  Proof.
    induction v using val_nested; intros dd k S; inversion S as [| |? LT|? NE ND IN]; subst; try reflexivity.
    cbn [numbers_as_text]. destruct d as [|kv e]; [congruence|]. 
    change (VDict (map (fun kv => (fst kv, back (snd kv))) (kv :: e))) with (VDict ((fst kv, back (snd kv)) :: map (fun kv => (fst kv, back (snd kv))) e)).
    rewrite !emitS_dict. do 2 f_equal. f_equal. f_equal. change ((fst kv, back (snd kv)) :: map (fun kv => (fst kv, back (snd kv))) e) with (map (fun kv => (fst kv, back (snd kv))) (kv :: e)).
    rewrite map_map. apply map_ext_in. intros [k' w] A. cbn [fst snd]. destruct (IN _ _ A) as [K' W]. rewrite Forall_forall in H. pose proof (H _ A) as HW. cbn [snd] in HW.
    inversion W as [? W1|l L2 WL]; subst.
    - specialize (HW (Datatypes.S dd) k' W1). destruct w; try exact HW. inversion W1.
    - specialize (H0 _ _ A). rewrite Forall_forall in H0. cbn [fieldS numbers_as_text]. f_equal. rewrite map_map. apply map_ext_in. intros x X. apply (H0 x X). apply WL, X.
  Qed.
  Lemma back_sget d k : sget (map (fun kv => (fst kv, back (snd kv))) d) k = option_map back (sget d k).
  Proof. unfold sget. induction d as [|[k' v] d IH]; [reflexivity|]. cbn. destruct (String.eqb k k'); [reflexivity|exact IH]. Qed.
  Lemma back_sset d k v : map (fun kv => (fst kv, back (snd kv))) (sset d k v) = sset (map (fun kv => (fst kv, back (snd kv))) d) k (back v).
  Proof. unfold sset. induction d as [|[k' w] d IH]; [reflexivity|]. cbn. destruct (String.eqb k k'); [reflexivity|]. cbn. rewrite IH. reflexivity. Qed.
  Definition commutes (g : val -> result val) : Prop := forall x y, g x = Ok y -> g (back x) = Ok (back y).
  Lemma update_back k g : commutes g -> commutes (update k g).
  Proof.
    intros C x y H. unfold update in *. destruct x as [| | |d|l]; try discriminate. cbn [get1] in H. cbn [numbers_as_text get1]. rewrite back_sget.
    destruct (sget d k) as [v|]; [|discriminate]. cbn [bind option_map] in *. destruct (g v) as [w|] eqn:G; [|discriminate]. cbn [bind] in H. injection H as <-.
    rewrite (C _ _ G). cbn [bind numbers_as_text]. rewrite back_sset. reflexivity.
  Qed.
  Lemma pad8_back : commutes pad8.
  Proof.
    intros [| | |d|l] y H; unfold pad8 in *; cbn [numbers_as_text]; try discriminate H.
    - injection H as <-. reflexivity.
    - rewrite map_length. destruct (length d <? 8)%nat; [discriminate H|]. injection H as <-. reflexivity.
    - rewrite map_length. destruct (length l <? 8)%nat; [discriminate H|]. injection H as <-. reflexivity.
  Qed.
  Lemma mapM_back g : commutes g -> forall l m, mapM g l = Ok m -> mapM g (map back l) = Ok (map back m).
  Proof.
    intros C. induction l as [|x l IH]; intros m H; cbn in H; [injection H as <-; reflexivity|].
    destruct (g x) as [y|] eqn:G; [|discriminate]. cbn [bind] in H. destruct (mapM g l) as [ys|]; [|discriminate]. injection H as <-. cbn [map mapM]. rewrite (C _ _ G), (IH ys eq_refl). reflexivity.
  Qed.
  Lemma entries_back k g : commutes g -> commutes (entries k g).
  Proof.
    intros C x y H. unfold entries in *. destruct x as [| | |d|l]; cbn [numbers_as_text] in *; [injection H as <-; reflexivity|discriminate|discriminate| |discriminate].
    change (VDict (map (fun kv => (fst kv, back (snd kv))) d)) with (back (VDict d)).     revert H. apply update_back. intros v w H. destruct v as [| | |dv|lv]; cbn [numbers_as_text] in *; try (injection H as <-; reflexivity).
    - exact (C _ _ H).
    - destruct (mapM g lv) as [m|] eqn:M; [|discriminate]. cbn [bind] in H. injection H as <-. rewrite (mapM_back g C _ _ M). reflexivity.
  Qed.
  Lemma bind_back (g h : val -> result val) : commutes g -> commutes h -> commutes (fun x => let! y := g x in h y).
  Proof. intros A B x y H. destruct (g x) as [z|] eqn:G; [|discriminate]. cbn [bind] in H. rewrite (A _ _ G). cbn [bind]. apply B, H. Qed.
  Lemma ends_back : commutes ends_whitespace.
  Proof.
    unfold ends_whitespace. apply bind_back; [apply update_back; intros [| | | |] y H; injection H as <-; reflexivity|].
    apply bind_back; [apply update_back, pad8_back|]. apply update_back. intros [| | | |] y H; try discriminate; injection H as <-; reflexivity.
  Qed.
  Lemma step_back : commutes format_step.
  Proof.
    unfold format_step. apply bind_back; [apply update_back, pad8_back|].
    apply bind_back; [apply update_back; intros x y H; destruct x; try (exact (pad8_back _ _ H)); discriminate|].
    apply bind_back; [apply update_back, entries_back, ends_back|]. apply update_back, entries_back, update_back, pad8_back.
  Qed.
  Lemma format_back : commutes format_maccor.
  Proof.
    unfold format_maccor. do 3 apply update_back. intros [|[|c s]| |[|kv d]|l] y H; cbn in H; try discriminate; try (injection H as <-; reflexivity).
    destruct (mapM format_step l) as [m|] eqn:M; [|discriminate]. injection H as <-. cbn. rewrite (mapM_back _ step_back _ _ M). reflexivity.
  Qed.
  Lemma filled_back v : (filled v -> as_read show v = back v) /\ (shaped_field (fun s => good_text s /\ s <> "") v -> as_read show v = back v).
  Proof.
    assert (A : forall v, filled v -> as_read show v = back v).
    { clear v. induction v using val_nested; intro S; inversion S as [| |? GT|? NE ND IN]; subst; try reflexivity.
      - destruct s; [destruct GT; congruence|reflexivity].
      - cbn [as_read numbers_as_text]. f_equal. apply map_ext_in. intros [k w] J. cbn [fst snd]. f_equal. destruct (IN _ _ J) as [_ W]. rewrite Forall_forall in H. inversion W as [? W1|l L2 WL]; subst; [exact (H _ J W1)|].
        specialize (H0 _ _ J). rewrite Forall_forall in H0. cbn. f_equal. apply map_ext_in. intros x X. apply (H0 x X (WL x X)). }
    split; [apply A|]. intro W. inversion W as [? W1|l L2 WL]; subst; [exact (A v W1)|]. cbn. f_equal. apply map_ext_in. intros x X. apply (A x (WL x X)).
  Qed.
  Lemma shaped_impl (T U : string -> Prop) v : (forall s, T s -> U s) -> (shaped T v -> shaped U v) /\ (shaped_field T v -> shaped_field U v).
  Proof.
    intro I. assert (A : forall v, shaped T v -> shaped U v).
    { clear v. induction v using val_nested; intro S; inversion S as [| |? GT|? NE ND IN]; subst; constructor; auto. intros k w J. destruct (IN _ _ J) as [K W]. split; [exact K|].
      rewrite Forall_forall in H. inversion W as [? W1|l L2 WL]; subst; [apply shaped_one, (H _ J W1)|]. specialize (H0 _ _ J). rewrite Forall_forall in H0. apply shaped_many; [exact L2|]. intros x X. apply (H0 x X (WL x X)). }
    split; [apply A|]. intro W. inversion W as [? W1|l L2 WL]; subst; [apply shaped_one, A, W1|apply shaped_many; [exact L2|]; intros x X; apply A, (WL x X)].
  Qed.
  Lemma filled_plain v : filled v -> plain v.
  Proof. apply shaped_impl. intros s [G _]. exact G. Qed.
End Lines.
