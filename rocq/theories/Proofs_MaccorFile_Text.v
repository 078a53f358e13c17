(** Lemmas for C116-C118: the text that is written, and what reading makes of it. *)
From Verif Require Import Py Proofs_Diagnostic Proofs_Strings Model_Arbin Spec_Arbin Proofs_Arbin Model_Procedure Model_MaccorFile Spec_MaccorFile Proofs_MaccorFile.
Local Open Scope string_scope.

Lemma cut c x : forall y a b, free c x -> free c y -> x ++ String c a = y ++ String c b -> x = y /\ a = b.
Proof.
  induction x as [|d x IH]; intros [|e y] a b F G E; cbn in E.
  - injection E as E. auto.
  - injection E as E1 E2. destruct G as [G _]. congruence.
  - injection E as E1 E2. destruct F as [F _]. congruence.
  - injection E as E1 E2. destruct F as [_ F], G as [_ G]. destruct (IH _ _ _ F G E2) as [-> ->]. subst e. auto.
Qed.

(** ** Abbreviating empty elements *)
Section Replace.
  Variable X : string.
  Hypothesis N : field_name X.
  Definition old := "<" ++ X ++ "></" ++ X ++ ">".
  Definition new := "<" ++ X ++ "/>".
  Notation rep s := (replace_from old new s 0).
  Lemma rep_free t s : free "<" t -> rep (t ++ s) = t ++ rep s.
  Proof.
    induction t as [|c t IH]; [reflexivity|]. intros [F1 F2]. cbn [append replace_from].
    destruct (prefix old (String c (t ++ s))) eqn:P; [|rewrite IH by exact F2; reflexivity].
    apply prefix_iff in P. destruct P as (r & E). unfold old in E. cbn in E. injection E as E _. contradiction.
  Qed.
  Lemma rep_skip t s : replace_from old new (t ++ s) (String.length t) = rep s.
  Proof. induction t as [|c t IH]; [reflexivity|exact IH]. Qed.
  Lemma rep_hit s : rep (old ++ s) = new ++ rep s.
  Proof.
    assert (P : prefix old (old ++ s) = true) by (apply prefix_iff; eexists; reflexivity).
    unfold old in *. set (o := X ++ "></" ++ X ++ ">") in *. change (("<" ++ o) ++ s) with (String "<" (o ++ s)) in *.
    cbn [replace_from]. rewrite P. f_equal. change (String.length ("<" ++ o)) with (S (String.length o)). rewrite Nat.sub_succ, Nat.sub_0_r. apply rep_skip.
  Qed.
  Lemma rep_miss r : prefix old (String "<" r) = false -> rep (String "<" r) = String "<" (rep r).
  Proof. intro P. cbn [replace_from]. rewrite P. reflexivity. Qed.
  Lemma rep_close k s : field_name k -> rep ("</" ++ k ++ ">" ++ s) = "</" ++ k ++ ">" ++ rep s.
  Proof.
    intro K. destruct (name_ok k K) as (_ & F & _). destruct (name_ok X N) as (_ & _ & _ & _ & _ & c & r & E & _ & C & _).
    change ("</" ++ k ++ ">" ++ s) with (String "<" (String "/" (k ++ ">" ++ s))). rewrite rep_miss.
    - f_equal. change (String "/" (k ++ ">" ++ s)) with ((String "/" k) ++ (">" ++ s)). rewrite rep_free by (split; [discriminate|exact F]).
      change (">" ++ s) with (">" ++ s). rewrite (rep_free ">" s) by (split; [discriminate|exact Logic.I]). reflexivity.
    - apply not_true_iff_false. intro P. apply prefix_iff in P. destruct P as (q & P). unfold old in P. rewrite E in P. cbn in P. injection P as P _. congruence.
  Qed.
  Lemma rep_open k s : field_name k -> (k = X -> prefix ("</" ++ X ++ ">") s = false) -> rep ("<" ++ k ++ ">" ++ s) = "<" ++ k ++ ">" ++ rep s.
  Proof.
    intros K M. destruct (name_ok k K) as (_ & F & G & _). destruct (name_ok X N) as (_ & _ & GX & _).
    change ("<" ++ k ++ ">" ++ s) with (String "<" (k ++ ">" ++ s)). rewrite rep_miss.
    - rewrite (rep_free k) by exact F. rewrite (rep_free ">") by (split; [discriminate|exact Logic.I]). reflexivity.
    - apply not_true_iff_false. intro P. apply prefix_iff in P. destruct P as (q & P). unfold old in P. rewrite !app_assoc_s in P. cbn in P. injection P as P.
      destruct (cut ">" k X s ("</" ++ X ++ ">" ++ q) G GX P) as [-> ->].
      rewrite <- not_true_iff_false in M. apply M; [reflexivity|]. apply prefix_iff. exists q. rewrite !app_assoc_s. reflexivity.
  Qed.
  Lemma rep_short k s : field_name k -> rep ("<" ++ k ++ "/>" ++ s) = "<" ++ k ++ "/>" ++ rep s.
  Proof.
    intros K. destruct (name_ok k K) as (_ & F & G & FS & _). destruct (name_ok X N) as (_ & _ & GX & FX & _).
    change ("<" ++ k ++ "/>" ++ s) with (String "<" (k ++ "/>" ++ s)). rewrite rep_miss.
    - rewrite (rep_free k) by exact F. rewrite (rep_free "/>") by (repeat split; discriminate). reflexivity.
    - apply not_true_iff_false. intro P. apply prefix_iff in P. destruct P as (q & P). unfold old in P. rewrite !app_assoc_s in P. cbn in P. injection P as P.
      change (k ++ String "/" (String ">" s) = X ++ String ">" ("</" ++ X ++ ">" ++ q)) in P.
      assert (E : (k ++ "/") ++ String ">" s = X ++ String ">" ("</" ++ X ++ ">" ++ q)) by (rewrite app_assoc_s; exact P).
      assert (G' : free ">" (k ++ "/")) by (apply free_app; split; [exact G|split; [discriminate|exact Logic.I]]).
      destruct (cut ">" _ _ _ _ G' GX E) as [E1 _].
      rewrite <- E1 in FX. apply free_app in FX. destruct FX as [_ [FX _]]. congruence.
  Qed.
End Replace.

Section Emit.
  Variable show : val -> string.
  Hypothesis P : prints show.

  Definition eol (d : nat) : string := if (d =? 0)%nat then "" else String nl "".
  Lemma eol_ws d : ws (eol d). Proof. unfold eol. destruct (d =? 0)%nat; cbn; auto. Qed.
  Definition elementS (short : list string) (d : nat) (k body : string) : string :=
    if (String.eqb body "" && str_in k short)%bool then indent d ++ "<" ++ k ++ "/>" ++ eol d else element d k body.
  (** what is written once the empty elements named in [short] are abbreviated *)
  Fixpoint emitS (short : list string) (depth : nat) (key : string) (v : val) {struct v} : string :=
    elementS short depth key
      match v with
      | VNone => ""
      | VText s => escape s
      | VNum _ | VList _ => escape (show v)
      | VDict d =>
          let children := map (fun kv : string * val => let (k, w) := kv in
                                         match w with
                                         | VList l => String.concat "" (map (emitS short (S depth) k) l)
                                         | _ => emitS short (S depth) k w
                                         end) d in
          match d with
          | [] => ""
          | _ => (String nl "" ++ String.concat "" children ++ indent depth)%string
          end
      end.
  Definition fieldS short depth (kv : string * val) : string :=
    let (k, w) := kv in match w with VList l => String.concat "" (map (emitS short depth k) l) | _ => emitS short depth k w end.
  Lemma emitS_dict short d k kv e : emitS short d k (VDict (kv :: e)) =
    element d k (String nl "" ++ String.concat "" (map (fieldS short (S d)) (kv :: e)) ++ indent d).
  Proof. reflexivity. Qed.
  Lemma emit_emitS v : forall d k, emit show d k v = emitS [] d k v.
  Proof.
    assert (Z : forall d k b, elementS [] d k b = element d k b) by (intros; unfold elementS; cbn; rewrite andb_false_r; reflexivity).
    induction v using val_nested; intros dd k; cbn [emit emitS]; rewrite Z; f_equal.
    destruct d as [|kv e]; [reflexivity|]. f_equal. f_equal. f_equal. apply map_ext_in. intros [k' w] J.
    rewrite Forall_forall in H. specialize (H _ J). cbn in H. destruct w as [| | | |l]; try apply H.
    specialize (H0 _ _ J). f_equal. apply map_ext_in. intros x Y. rewrite Forall_forall in H0. apply H0, Y.
  Qed.

  Lemma element_eq d k b s : element d k b ++ s = indent d ++ "<" ++ k ++ ">" ++ b ++ "</" ++ k ++ ">" ++ eol d ++ s.
  Proof. unfold element. fold (eol d). rewrite !app_assoc_s. reflexivity. Qed.
  Lemma indent_free d c : c <> " "%char -> free c (indent d).
  Proof. apply blank_free. Qed.
  Lemma eol_free d c : c <> nl -> free c (eol d).
  Proof. intro H. unfold eol. destruct (d =? 0)%nat; cbn; auto. Qed.

  Lemma rep_element X short d k b s : field_name X -> field_name k -> (b = "" \/ exists c r, b = String c r /\ c <> "<"%char) ->
    (forall t, replace_from (old X) (new X) (b ++ t) 0 = b ++ replace_from (old X) (new X) t 0) ->
    replace_from (old X) (new X) (elementS short d k b ++ s) 0 = elementS (X :: short) d k b ++ replace_from (old X) (new X) s 0.
  Proof.
    intros NX NK B R. unfold elementS.
    assert (I1 : forall t, replace_from (old X) (new X) (indent d ++ t) 0 = indent d ++ replace_from (old X) (new X) t 0) by (intro; apply rep_free, indent_free; discriminate).
    assert (I2 : forall t, replace_from (old X) (new X) (eol d ++ t) 0 = eol d ++ replace_from (old X) (new X) t 0) by (intro; apply rep_free, eol_free; discriminate).
    destruct (String.eqb_spec b "") as [E|NE].
    - subst b. cbn [andb]. unfold str_in. cbn [existsb]. fold (str_in k short). destruct (str_in k short) eqn:S.
      + rewrite orb_true_r, !app_assoc_s. change ("<" ++ k ++ "/>" ++ eol d ++ s) with ("<" ++ k ++ "/>" ++ (eol d ++ s)).
        rewrite I1, rep_short, I2 by assumption. reflexivity.
      + rewrite orb_false_r. rewrite element_eq, I1. cbn [append]. destruct (String.eqb_spec k X) as [->|NX'].
        * change (String "<" (X ++ String ">" (String "<" (String "/" (X ++ String ">" (eol d ++ s)))))) with ("<" ++ X ++ "></" ++ X ++ ">" ++ (eol d ++ s)).
          replace ("<" ++ X ++ "></" ++ X ++ ">" ++ (eol d ++ s)) with (old X ++ (eol d ++ s)) by (unfold old; rewrite !app_assoc_s; reflexivity).
          rewrite rep_hit, I2. unfold new. rewrite !app_assoc_s. cbn [append]. rewrite !app_assoc_s. cbn [append]. reflexivity.
        * rewrite element_eq. change (String "<" (k ++ String ">" (String "<" (String "/" (k ++ String ">" (eol d ++ s)))))) with ("<" ++ k ++ ">" ++ ("</" ++ k ++ ">" ++ (eol d ++ s))).
          rewrite rep_open, rep_close, I2 by (assumption || congruence). reflexivity.
    - cbn [andb]. rewrite !element_eq, I1, rep_open; [rewrite R, rep_close, I2 by assumption; reflexivity|assumption|assumption|].
      intros ->. destruct B as [B|(c & r & -> & C)]; [contradiction|]. apply not_true_iff_false. intro Q. apply prefix_iff in Q. destruct Q as (q & Q). cbn in Q. injection Q as Q _. contradiction.
  Qed.

  Lemma body_text s : legal_text s -> (escape s = "" \/ exists c r, escape s = String c r /\ c <> "<"%char).
  Proof. intros _. destruct (String.eqb_spec s ""); [left; subst; reflexivity|right; apply escape_nonempty; assumption]. Qed.
  Lemma show_legal q : legal_text (show (VNum q)).
  Proof. apply P. Qed.

  Lemma rep_emit X v : field_name X -> shaped legal_text v -> forall short d k s, field_name k ->
    replace_from (old X) (new X) (emitS short d k v ++ s) 0 = emitS (X :: short) d k v ++ replace_from (old X) (new X) s 0.
  Proof.
    intros NX. induction v using val_nested; intros S short dd k t NK; cbn [emitS].
    - apply rep_element; auto.
    - inversion S; subst. apply rep_element; auto; [apply body_text; assumption|]. intro. apply rep_free, escape_free.
    - apply rep_element; auto; [apply body_text, show_legal|]. intro. apply rep_free, escape_free.
    - inversion S as [| | |? NE ND IN]; subst. destruct d as [|kv e]; [congruence|].
      match goal with |- replace_from _ _ (elementS _ _ _ ?b ++ _) _ = elementS _ _ _ ?c ++ _ => set (b1 := b); set (b2 := c) end.
      assert (R : forall u, replace_from (old X) (new X) (b1 ++ u) 0 = b2 ++ replace_from (old X) (new X) u 0).
      { intro u. unfold b1, b2. rewrite !app_assoc_s. rewrite (rep_free X (String nl "")) by (split; [discriminate|exact Logic.I]). f_equal.
        fold (fieldS short (Datatypes.S dd)). fold (fieldS (X :: short) (Datatypes.S dd)).
        assert (L : forall e', incl e' (kv :: e) -> forall u, replace_from (old X) (new X) (String.concat "" (map (fieldS short (Datatypes.S dd)) e') ++ u) 0 =
                     String.concat "" (map (fieldS (X :: short) (Datatypes.S dd)) e') ++ replace_from (old X) (new X) u 0).
        { induction e' as [|[k' w] e' IHe]; intros J u'; [reflexivity|]. cbn [map]. rewrite !concat_cons, !app_assoc_s.
          assert (A : In (k', w) (kv :: e)) by (apply J; left; reflexivity). destruct (IN _ _ A) as [K' W].
          assert (IHe' := IHe (fun x Hx => J x (or_intror Hx))).
          rewrite Forall_forall in H. pose proof (H _ A) as HW. cbn [snd] in HW.
          inversion W as [? W1|l L2 WL]; subst.
          - destruct w as [| | | |l]; try (cbn [fieldS]; rewrite HW by assumption; rewrite IHe'; reflexivity). inversion W1.
          - cbn [fieldS]. specialize (H0 _ _ A). rewrite Forall_forall in H0. clear L2 HW W A J.
            assert (LL : forall l', incl l' l -> forall u, replace_from (old X) (new X) (String.concat "" (map (emitS short (Datatypes.S dd) k') l') ++ u) 0 =
                     String.concat "" (map (emitS (X :: short) (Datatypes.S dd) k') l') ++ replace_from (old X) (new X) u 0).
            { induction l' as [|x l' IHl]; intros J u''; [reflexivity|]. cbn [map]. rewrite !concat_cons, !app_assoc_s.
              assert (A : In x l) by (apply J; left; reflexivity). rewrite (H0 x A (WL x A)) by assumption. rewrite IHl by (intros y Y; apply J; right; exact Y). reflexivity. }
            rewrite LL by (apply incl_refl). rewrite IHe'. reflexivity. }
        rewrite L by (apply incl_refl). rewrite rep_free by (apply indent_free; discriminate). reflexivity. }
      assert (N1 : String.eqb b1 "" = false) by reflexivity. assert (N2 : String.eqb b2 "" = false) by reflexivity.
      unfold elementS. rewrite N1, N2. cbn [andb].
      rewrite !element_eq. rewrite rep_free by (apply indent_free; discriminate). rewrite rep_open; [|assumption|assumption|intros _; reflexivity].
      rewrite R, rep_close by assumption. rewrite rep_free by (apply eol_free; discriminate). reflexivity.
    - inversion S.
  Qed.
End Emit.
