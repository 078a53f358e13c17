(** Lemmas behind the properties of `beep structure`. *)
From Verif Require Import Py Num Model_Cmd Spec_Cmd Proofs_Datapath Proofs_Diagnostic.
From Coq Require Import Permutation.

Section Structure.
  Context (md5 : string -> string -> result string) {data : Type}.
  Context (auto_load : string -> string -> result data) (schema : data -> string) (validate : data -> result (bool * string)).
  Context (structure_with autostructure : data -> result data).
  Context (structuring_parameters : data -> string) (dump : bool -> data -> result string) (writable : string -> result unit).
  Notation attempt := (attempt md5 data auto_load schema validate structure_with autostructure structuring_parameters dump writable).
  Notation each := (each md5 data auto_load schema validate structure_with autostructure structuring_parameters dump writable).
  Notation passes := (passes md5 auto_load validate).
  Notation process := (process structure_with autostructure).
  Notation becomes := (becomes md5 auto_load validate structure_with autostructure dump writable).
  Notation trouble := (trouble md5 auto_load validate structure_with autostructure dump writable).
  Notation truthful := (truthful md5 auto_load schema validate structure_with autostructure structuring_parameters dump writable).
  Notation written := (written md5 auto_load validate structure_with autostructure dump writable).

  Definition noted (s : status) (e : option exn) : status := match e with Some e => with_trace s e | None => s end.

  Ltac absurdly := exfalso;
    repeat match goal with
    | H : exists _, _ |- _ => destruct H
    | H : _ /\ _ |- _ => destruct H
    end; congruence.
  Ltac opened := unfold Spec_Cmd.becomes, Spec_Cmd.passes in *;
    repeat match goal with
    | H : exists _, _ |- _ => destruct H
    | H : _ /\ _ |- _ => destruct H
    end.
  Ltac same := repeat match goal with
    | A : ?x = Ok ?a, B : ?x = Ok ?b |- _ => lazymatch a with b => fail | _ => rewrite A in B; injection B as B; try subst end
    | A : ?x = Ok _, B : ?x = Err _ |- _ => exfalso; congruence
    | A : ?x = true, B : ?x = false |- _ => exfalso; congruence
    end.

  Lemma sget_other {V} (w : list (string * V)) k k' v : k <> k' -> sget (sset w k v) k' = sget w k'.
  Proof. intros N. rewrite sget_sset. destruct (String.eqb_spec k' k); congruence. Qed.
  Lemma sget_this {V} (w : list (string * V)) k v : sget (sset w k v) k = Some v.
  Proof. rewrite sget_sset, String.eqb_refl. reflexivity. Qed.

  Lemma attempt_spec o f out w b w' s e :
    attempt o f out w = (w', s, e) -> sget w f = Some b ->
    truthful o f b out (noted s e) /\ (forall x, e = Some x <-> trouble o f b out x) /\
    (forall p, p <> out -> sget w' p = sget w p) /\ written o f b out w w'.
  Proof.
    unfold Model_Cmd.attempt. intros A B. unfold md5sum in A. rewrite B in A.
    destruct (md5 f b) as [h|x] eqn:M.
    2: { injection A as <- <- <-. assert (T : forall y, Some x = Some y <-> trouble o f b out y).
         { intros y. split; [intros [= <-]; now apply unhashed|]. intros T. destruct T; opened; same; congruence. }
         split; [constructor; cbn; [| | reflexivity |exact T| | | |]; try (split; [discriminate|]); intros; opened; congruence|].
         split; [exact T|]. split; [reflexivity|]. split; [|reflexivity]. intros; opened; congruence. }
    destruct (auto_load f b) as [d|x] eqn:L.
    2: { injection A as <- <- <-. assert (T : forall y, Some x = Some y <-> trouble o f b out y).
         { intros y. split; [intros [= <-]; now eapply unloaded; eauto|]. intros T. destruct T; opened; same; congruence. }
         split; [constructor; cbn; [| | reflexivity |exact T| | | |]; try (split; [discriminate|]); intros; opened; congruence|].
         split; [exact T|]. split; [reflexivity|]. split; [|reflexivity]. intros; opened; congruence. }
    destruct (validate d) as [[ok r]|x] eqn:V.
    2: { injection A as <- <- <-. assert (T : forall y, Some x = Some y <-> trouble o f b out y).
         { intros y. split; [intros [= <-]; now eapply unchecked; eauto|]. intros T. destruct T; opened; same; congruence. }
         split; [constructor; cbn; [| | reflexivity |exact T| | | |]; try (split; [discriminate|]); intros; opened; same; congruence|].
         split; [exact T|]. split; [reflexivity|]. split; [|reflexivity]. intros; opened; same; congruence. }
    destruct ok; cbn [negb] in A.
    2: { injection A as <- <- <-. assert (T : forall y, Some BEEPValidationError = Some y <-> trouble o f b out y).
         { intros y. split; [intros [= <-]; now eapply rejected; eauto|]. intros T. destruct T; opened; same; congruence. }
         split; [constructor; cbn; [| | reflexivity |exact T| | | |]; try (split; [discriminate|]); intros; opened; same; congruence|].
         split; [exact T|]. split; [reflexivity|]. split; [|reflexivity]. intros; opened; same; congruence. }
    assert (P : passes f b d) by (split; [eauto|split; eauto]).
    assert (PD : forall d0, passes f b d0 -> d0 = d) by (intros d0 (_ & L' & _); congruence).
    destruct (validation_only o) eqn:O.
    { injection A as <- <- <-. assert (T : forall y, None = Some y <-> trouble o f b out y).
      { intros y. split; [discriminate|]. intros T. destruct T; opened; same; congruence. }
      split; [constructor; cbn; [split; eauto| |reflexivity|exact T| | | |]; try (split; [discriminate|])|].
      1-5: intros; opened; same; congruence.
      split; [exact T|]. split; [reflexivity|]. split; [|reflexivity]. intros; opened; congruence. }
    replace (if automatic o then autostructure d else structure_with d) with (process o d) in A by (unfold Spec_Cmd.process; now destruct (automatic o)).
    destruct (process o d) as [d'|x] eqn:S.
    2: { injection A as <- <- <-. assert (T : forall y, Some x = Some y <-> trouble o f b out y).
         { intros y. split; [intros [= <-]; now eapply unstructured; eauto|]. intros T. destruct T; opened; same; congruence. }
         split; [constructor; cbn; [split; eauto| |reflexivity|exact T| | | |]; try (split; [discriminate|])|].
         1-5: intros; opened; same; congruence.
         split; [exact T|]. split; [reflexivity|]. split; [|reflexivity]. intros; opened; same; congruence. }
    destruct (let! t := dump (no_raw o) d' in let! _ := writable out in Ok t) as [t|x] eqn:W.
    2: { injection A as <- <- <-.
         assert (NB : forall d0 t0, ~ becomes o f b out d0 t0).
         { intros d0 t0 (_ & (d1 & P1 & S1) & D1 & W1). rewrite (PD _ P1) in S1. assert (d0 = d') by congruence. subst.
           rewrite D1 in W. cbn in W. rewrite W1 in W. discriminate. }
         assert (T : forall y, Some x = Some y <-> trouble o f b out y).
         { intros y. split; [intros [= <-]; now eapply unwritten; eauto|]. intros T.
           destruct T as [| | | | d0 e V0 P0 E0|d0 d1 e V0 P0 E0 W0|d0 t e BE ME]; [opened; same; congruence..| | |destruct (NB _ _ BE)].
           - rewrite (PD _ P0) in E0. congruence.
           - rewrite (PD _ P0) in E0. assert (d1 = d') by congruence. subst. congruence. }
         split; [constructor; cbn; [split; eauto| |reflexivity|exact T| | | |]|].
         - split; [discriminate|]. intros (d0 & t0 & X). destruct (NB _ _ X).
         - intros; same; congruence.
         - intros d0 P0. now rewrite (PD _ P0).
         - intros d0 t0 X. destruct (NB _ _ X).
         - intros d0 t0 h0 X. destruct (NB _ _ X).
         - split; [exact T|]. split; [reflexivity|]. split; [|reflexivity]. intros d0 t0 X. destruct (NB _ _ X). }
    assert (DW : dump (no_raw o) d' = Ok t /\ writable out = Ok tt).
    { destruct (dump (no_raw o) d') as [t'|]; cbn in W; [|discriminate]. destruct (writable out) as [[]|]; cbn in W; [|discriminate].
      injection W as ->. split; reflexivity. }
    assert (BE : becomes o f b out d' t) by (split; [exact O|split; [exists d; split; [exact P|exact S]|exact DW]]).
    assert (BD : forall d0 t0, becomes o f b out d0 t0 -> d0 = d' /\ t0 = t).
    { intros d0 t0 (_ & (d1 & P1 & S1) & D1 & W1). rewrite (PD _ P1) in S1. assert (d0 = d') by congruence. subst.
      split; [reflexivity|]. destruct DW. congruence. }
    rewrite sget_this in A. destruct (md5 out t) as [h'|x] eqn:H'.
    - injection A as <- <- <-.
      assert (T : forall y, None = Some y <-> trouble o f b out y).
      { intros y. split; [discriminate|]. intros T.
        destruct T as [| | | | d0 e V0 P0 E0|d0 d1 e V0 P0 E0 W0|d0 t0 e B0 ME]; [opened; same; congruence..| | |].
        - rewrite (PD _ P0) in E0. congruence.
        - rewrite (PD _ P0) in E0. assert (d1 = d') by congruence. subst. congruence.
        - destruct (BD _ _ B0) as [-> ->]. congruence. }
      split; [constructor; cbn; [split; eauto|split; eauto|reflexivity|exact T| | | |]|].
      + intros; congruence.
      + intros d0 P0. now rewrite (PD _ P0).
      + intros d0 t0 X. now destruct (BD _ _ X) as [-> ->].
      + intros d0 t0 h0 X. destruct (BD _ _ X) as [-> ->]. congruence.
      + split; [exact T|]. split; [intros p N; apply sget_other; congruence|].
        split; [intros d0 t0 X; destruct (BD _ _ X) as [-> ->]; apply sget_this|intros X; destruct (X _ _ BE)].
    - injection A as <- <- <-.
      assert (T : forall y, Some x = Some y <-> trouble o f b out y).
      { intros y. split; [intros [= <-]; eapply unhashed_output; eauto|]. intros T.
        destruct T as [| | | | d0 e V0 P0 E0|d0 d1 e V0 P0 E0 W0|d0 t0 e B0 ME]; [opened; same; congruence..| | |].
        - rewrite (PD _ P0) in E0. congruence.
        - rewrite (PD _ P0) in E0. assert (d1 = d') by congruence. subst. congruence.
        - destruct (BD _ _ B0) as [-> ->]. congruence. }
      split; [constructor; cbn; [split; eauto|split; eauto|reflexivity|exact T| | | |]|].
      + intros; congruence.
      + intros d0 P0. now rewrite (PD _ P0).
      + intros d0 t0 X. now destruct (BD _ _ X) as [-> ->].
      + intros d0 t0 h0 X. destruct (BD _ _ X) as [-> ->]. congruence.
      + split; [exact T|]. split; [intros p N; apply sget_other; congruence|].
        split; [intros d0 t0 X; destruct (BD _ _ X) as [-> ->]; apply sget_this|intros X; destruct (X _ _ BE)].
  Qed.

  Lemma sset_fresh {V} (d : list (string * V)) k v : ~ In k (map fst d) -> sset d k v = d ++ [(k, v)].
  Proof.
    induction d as [|[k' v'] d IH]; [reflexivity|]. cbn. intros N. destruct (String.eqb_spec k k') as [->|E].
    - destruct N. now left.
    - f_equal. apply IH. intros I. apply N. now right.
  Qed.
  (** [x] is what is recorded for the pair of input and output [fo]. *)
  Definition told (o : options) (w w' : disk) (fo : string * string) (x : string * status) : Prop :=
    fst x = fst fo /\ forall b, sget w (fst fo) = Some b -> truthful o (fst fo) b (snd fo) (snd x) /\ written o (fst fo) b (snd fo) w w'.
  Definition sound (o : options) (w : disk) (fo : string * string) : Prop :=
    forall b e, sget w (fst fo) = Some b -> ~ trouble o (fst fo) b (snd fo) e.
  Definition stopped (o : options) (l : list (string * string)) (w w' : disk) (e : exn) : Prop :=
    exists pre f out post b, l = pre ++ (f, out) :: post /\ sget w f = Some b /\ trouble o f b out e /\
      (forall p, ~ In p (map snd pre) -> p <> out -> sget w' p = sget w p) /\
      (halt_on_error o = true -> Forall (sound o w) pre /\
         Forall (fun fo => forall b, sget w (fst fo) = Some b -> written o (fst fo) b (snd fo) w w') pre).

  Lemma written_later o f b out w w1 w' : written o f b out w w1 -> sget w' out = sget w1 out -> written o f b out w w'.
  Proof. intros [A B] E. split; rewrite E; assumption. Qed.
  Lemma written_earlier o f b out w w1 w' : written o f b out w1 w' -> sget w1 out = sget w out -> written o f b out w w'.
  Proof. intros [A B] E. split; [assumption|]. intros N. rewrite <- E. now apply B. Qed.

  Lemma each_spec o : forall l w acc w' x,
    each o l w acc = (w', x) ->
    NoDup (map fst l) -> NoDup (map snd l) -> (forall p, In p (map snd l) -> ~ In p (map fst l)) ->
    (forall f, In f (map fst l) -> ~ In f (map fst acc)) -> (forall f, In f (map fst l) -> exists b, sget w f = Some b) ->
    match x with
    | Finished st => (forall p, ~ In p (map snd l) -> sget w' p = sget w p) /\
        (exists new, st = acc ++ new /\ Forall2 (told o w w') l new) /\ (halt_on_error o = true -> Forall (sound o w) l)
    | Crashed e => halt_on_error o = true /\ is_interrupt e = false /\ stopped o l w w' e
    | Exited c => c = 0%Z /\ exists e, is_interrupt e = true /\ stopped o l w w' e
    end.
  Proof.
    induction l as [|[f out] l IH]; intros w acc w' x A N1 N2 D K X.
    - cbn in A. injection A as <- <-. split; [reflexivity|]. split; [exists []; split; [now rewrite app_nil_r|constructor]|constructor].
    - cbn [each] in A. cbn [map fst snd] in *. inversion N1 as [|? ? N1a N1b]; subst. inversion N2 as [|? ? N2a N2b]; subst.
      destruct (X f (or_introl eq_refl)) as [b B].
      destruct (attempt o f out w) as [[w1 s] e] eqn:T.
      destruct (attempt_spec _ _ _ _ _ _ _ _ T B) as (Tr & Te & Tp & Tw).
      assert (FO : forall g, In g (map fst l) -> g <> out).
      { intros g I ->. apply (D out (or_introl eq_refl)). now right. }
      assert (X1 : forall g, In g (map fst l) -> exists b, sget w1 g = Some b).
      { intros g I. rewrite Tp by now apply FO. apply X. now right. }
      assert (Kacc : ~ In f (map fst acc)) by (apply K; now left).
      assert (go : forall s', each o l w1 (sset acc f s') = (w', x) -> s' = noted s e ->
        (halt_on_error o = true -> e = None) ->
        match x with
        | Finished st => (forall p, ~ (out = p \/ In p (map snd l)) -> sget w' p = sget w p) /\
            (exists new, st = acc ++ new /\ Forall2 (told o w w') ((f, out) :: l) new) /\
            (halt_on_error o = true -> Forall (sound o w) ((f, out) :: l))
        | Crashed e => halt_on_error o = true /\ is_interrupt e = false /\ stopped o ((f, out) :: l) w w' e
        | Exited c => c = 0%Z /\ exists e, is_interrupt e = true /\ stopped o ((f, out) :: l) w w' e
        end).
      { intros s' A' -> He. specialize (IH w1 (sset acc f (noted s e)) w' x A' N1b N2b).
        assert (sf : forall e0 w0, Forall (fun fo => In (fst fo) (map fst l)) e0 -> (forall g, In g (map fst l) -> sget w0 g = sget w1 g) ->
                      Forall (sound o w1) e0 -> Forall (sound o w0) e0).
        { intros e0 w0 Fi Eq. rewrite !Forall_forall in *. intros H fo I b0 x0 B0. apply (H fo I b0 x0). rewrite <- Eq; [exact B0|]. now apply Fi. }
        assert (Wl : forall g, In g (map fst l) -> sget w g = sget w1 g) by (intros g I; symmetry; apply Tp; now apply FO).
        assert (Snd : halt_on_error o = true -> sound o w (f, out)).
        { intros H b0 x0 B0 Tr0. cbn in *. assert (b0 = b) by congruence. subst. apply Te in Tr0. rewrite He in Tr0 by assumption. discriminate. }
        assert (st : forall e0, stopped o l w1 w' e0 -> stopped o ((f, out) :: l) w w' e0).
        { intros e0 (pre & g & og & post & bg & E & Bg & Tg & Ug & Hg).
          assert (Ig : In g (map fst l)) by (rewrite E, map_app; apply in_or_app; right; now left).
          assert (Il : forall fo, In fo pre -> In (fst fo) (map fst l)) by (intros fo I; rewrite E, map_app; apply in_or_app; left; now apply in_map).
          assert (No : ~ In out (map snd pre) /\ out <> og).
          { split; [intros I|intros ->]; apply N2a; rewrite E, map_app; apply in_or_app; [now left|right; now left]. }
          exists ((f, out) :: pre), g, og, post, bg. split; [now rewrite E|]. split; [rewrite Wl by assumption; exact Bg|]. split; [exact Tg|].
          split.
          - intros p Np Ng. cbn in Np. rewrite Ug; [apply Tp; intros ->; apply Np; now left|intros I; apply Np; now right|exact Ng].
          - intros H. specialize (Hg H). destruct Hg as [Hs Hw]. split.
            + constructor; [now apply Snd|]. apply (sf pre w); [apply Forall_forall; exact Il|exact Wl|exact Hs].
            + constructor.
              * cbn. intros b0 B0. assert (b0 = b) by congruence. subst. eapply written_later; [exact Tw|]. apply Ug; apply No.
              * rewrite Forall_forall in *. intros fo I b0 B0.
                assert (B1 : sget w1 (fst fo) = Some b0) by (rewrite <- Wl; [exact B0|now apply Il]).
                eapply written_earlier; [apply (Hw fo I b0 B1)|]. apply Tp. intros Ex. apply (proj1 No). rewrite <- Ex. now apply in_map. }
        assert (P1 : forall p, In p (map snd l) -> ~ In p (map fst l)) by (intros p I J; apply (D p (or_intror I)); now right).
        assert (P2 : forall g, In g (map fst l) -> ~ In g (map fst (sset acc f (noted s e)))).
        { intros g I. rewrite sset_fresh by assumption. rewrite map_app. intros J. apply in_app_or in J. destruct J as [J|[J|[]]].
          - apply (K g); [now right|exact J].
          - cbn in J. subst. contradiction. }
        specialize (IH P1 P2 X1). destruct x as [st0|e0|c0].
        - destruct IH as (U & (new & -> & F) & H). split; [|split].
          + intros p Np. rewrite U by tauto. apply Tp. intros ->. apply Np. now left.
          + exists ((f, noted s e) :: new). split; [rewrite sset_fresh by assumption; now rewrite <- app_assoc|].
            constructor.
            * split; [reflexivity|]. cbn. intros b0 B0. assert (b0 = b) by congruence. subst. split; [exact Tr|].
              eapply written_later; [exact Tw|]. now apply U.
            * assert (M : forall l' new', (forall fo, In fo l' -> In fo l) -> Forall2 (told o w1 w') l' new' -> Forall2 (told o w w') l' new').
              { intros l' new' Sub F'. induction F' as [|fo y l' new' T0 F' IHF]; constructor.
                - destruct T0 as [E0 T0]. split; [exact E0|]. intros b0 B0.
                  assert (If : In fo l) by (apply Sub; now left).
                  destruct (T0 b0) as [T1 T2]; [rewrite <- Wl; [exact B0|now apply in_map]|]. split; [exact T1|].
                  eapply written_earlier; [exact T2|]. apply Tp. intros Ex. apply N2a. rewrite <- Ex. now apply in_map.
                - apply IHF. intros g I. apply Sub. now right. }
              apply M; auto.
          + intros H0. constructor; [now apply Snd|]. apply (sf l w); [apply Forall_forall; intros; now apply in_map|exact Wl|now apply H].
        - destruct IH as (H & Hi & S). split; [exact H|]. split; [exact Hi|]. now apply st.
        - destruct IH as (H & e1 & Hi & S). split; [exact H|]. exists e1. split; [exact Hi|]. now apply st. }
      destruct e as [e|]; [|apply (go s A); [reflexivity|reflexivity]].
      assert (here : stopped o ((f, out) :: l) w w1 e).
      { exists [], f, out, l, b. split; [reflexivity|]. split; [exact B|]. split; [now apply Te|].
        split; [intros p _ Np; now apply Tp|]. intros _. split; constructor. }
      destruct (is_interrupt e) eqn:I; [injection A as <- <-; split; [reflexivity|]; exists e; split; assumption|].
      destruct (halt_on_error o) eqn:H; [injection A as <- <-; split; [reflexivity|split; assumption]|].
      apply (go (with_trace s e) A); [reflexivity|discriminate].
  Qed.
End Structure.
