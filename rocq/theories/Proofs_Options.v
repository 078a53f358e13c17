(** Lemmas for C145. *)
From Verif Require Import Py Model_Options Spec_Options.

Section Options.
  Context {L : Type} (literal_eval : string -> result (value L)).
  Lemma parse_ok x y : parse_arg literal_eval x = Ok y <-> option_value literal_eval x y.
  Proof.
    unfold parse_arg, option_value. destruct x as [s|b| |l]; cbn [fix_boolean].
    - destruct (String.eqb_spec s "True") as [->|N1]; [|destruct (String.eqb_spec s "False") as [->|N2]]; cbn [evaluated].
      + split; [intro H; injection H as <-; right; left; split; reflexivity|]. intros [[H _]|[[_ ->]|[[H _]|(t & H & N & _)]]]; [exfalso; apply (H "True"%string); reflexivity|reflexivity|discriminate H|]. injection H as <-. contradiction.
      + split; [intro H; injection H as <-; right; right; left; split; reflexivity|]. intros [[H _]|[[H _]|[[_ ->]|(t & H & _ & N & _)]]]; [exfalso; apply (H "False"%string); reflexivity|discriminate H|reflexivity|]. injection H as <-. contradiction.
      + assert (B : (exists t, @Text L s = Text t /\ t <> "True"%string /\ t <> "False"%string /\ (literal_eval t = Ok y \/ ((literal_eval t = Err ValueError \/ literal_eval t = Err (OtherError "SyntaxError")) /\ y = Text s))) <->
          (literal_eval s = Ok y \/ ((literal_eval s = Err ValueError \/ literal_eval s = Err (OtherError "SyntaxError")) /\ y = Text s))).
        { split; [intros (t & E & _ & _ & H); injection E as <-; exact H|]. intro H. exists s. auto. }
        assert (C : forall P : Prop, (((forall t, @Text L s <> Text t) /\ y = Text s) \/ (@Text L s = Text "True" /\ y = Flag true) \/ (@Text L s = Text "False" /\ y = Flag false) \/ P) <-> P).
        { intro P. split; [|auto]. intros [[H _]|[[H _]|[[H _]|H]]]; [exfalso; apply (H s); reflexivity|injection H as H; contradiction|injection H as H; contradiction|exact H]. }
        rewrite C, B. clear B C. destruct (literal_eval s) as [v|e].
        * split; [intro H; left; exact H|]. intros [H|[[H|H] _]]; [exact H|discriminate H|discriminate H].
        * destruct e; try (split; [intro H; discriminate H|]; intros [H|[[H|H] _]]; discriminate H).
          -- split; [intro H; injection H as <-; right; split; [left; reflexivity|reflexivity]|]. intros [H|[_ ->]]; [discriminate H|reflexivity].
          -- destruct (String.eqb_spec name "SyntaxError") as [->|D].
             ++ split; [intro H; injection H as <-; right; split; [right; reflexivity|reflexivity]|]. intros [H|[_ ->]]; [discriminate H|reflexivity].
             ++ split; [intro H; discriminate H|]. intros [H|[[H|H] _]]; [discriminate H|discriminate H|]. injection H as H. contradiction.
    - split; [intro H; injection H as <-; left; split; [intros s E; discriminate E|reflexivity]|]. intros [[_ ->]|[[H _]|[[H _]|(s & H & _)]]]; [reflexivity|discriminate H..].
    - split; [intro H; injection H as <-; left; split; [intros s E; discriminate E|reflexivity]|]. intros [[_ ->]|[[H _]|[[H _]|(s & H & _)]]]; [reflexivity|discriminate H..].
    - split; [intro H; injection H as <-; left; split; [intros s E; discriminate E|reflexivity]|]. intros [[_ ->]|[[H _]|[[H _]|(s & H & _)]]]; [reflexivity|discriminate H..].
  Qed.
  Lemma parse_err x e : parse_arg literal_eval x = Err e <-> passes_on literal_eval x e.
  Proof.
    unfold parse_arg, passes_on. destruct x as [s|b| |l]; cbn [fix_boolean]; try (split; [intro H; discriminate H|intros (s & H & _); discriminate H]).
    destruct (String.eqb_spec s "True") as [->|N1]; [|destruct (String.eqb_spec s "False") as [->|N2]]; cbn [evaluated].
    - split; [intro H; discriminate H|]. intros (t & H & N & _). injection H as <-. contradiction.
    - split; [intro H; discriminate H|]. intros (t & H & _ & N & _). injection H as <-. contradiction.
    - assert (B : (exists t, @Text L s = Text t /\ t <> "True"%string /\ t <> "False"%string /\ literal_eval t = Err e /\ e <> ValueError /\ e <> OtherError "SyntaxError") <-> (literal_eval s = Err e /\ e <> ValueError /\ e <> OtherError "SyntaxError")).
      { split; [intros (t & E & _ & _ & H); injection E as <-; exact H|]. intro H. exists s. auto. }
      rewrite B. clear B. destruct (literal_eval s) as [v|x].
      + split; [intro H; discriminate H|]. intros [H _]. discriminate H.
      + destruct x; try (split; [intro H; injection H as <-; split; [reflexivity|split; discriminate]|]; intros [H _]; injection H as <-; reflexivity).
        * split; [intro H; discriminate H|]. intros (H & N & _). injection H as <-. contradiction.
        * destruct (String.eqb_spec name "SyntaxError") as [->|D].
          -- split; [intro H; discriminate H|]. intros (H & _ & N). injection H as <-. contradiction.
          -- split; [intro H; injection H as <-; split; [reflexivity|split; [discriminate|intro E; injection E as E; contradiction]]|]. intros [H _]. injection H as <-. reflexivity.
  Qed.
End Options.
Lemma set_new {A} (d : list (string * A)) k v : ~ In k (map fst d) -> sset d k v = d ++ [(k, v)].
Proof.
  induction d as [|[a b] d IH]; cbn; intro N; [reflexivity|]. destruct (String.eqb_spec k a) as [->|D]; [exfalso; apply N; left; reflexivity|]. f_equal. apply IH. intro I. apply N. right. exact I.
Qed.
Lemma set_all {A} (l d : list (string * A)) : NoDup (map fst (d ++ l)) -> fold_left (fun d kv => sset d (fst kv) (snd kv)) l d = d ++ l.
Proof.
  revert d. induction l as [|[k v] l IH]; intros d N; cbn [fold_left]; [rewrite app_nil_r; reflexivity|]. cbn [fst snd]. rewrite set_new.
  - rewrite IH; rewrite <- app_assoc; [reflexivity|exact N].
  - rewrite map_app in N. cbn in N. apply NoDup_remove_2 in N. intro I. apply N. apply in_or_app. left. exact I.
Qed.
Lemma mapM_pairs {A B K} (f : A -> result B) (g : K -> K) (l : list (K * A)) vs : mapM (fun kv => f (snd kv)) l = Ok vs ->
  Forall2 (fun a b => fst b = g (fst a) /\ f (snd a) = Ok (snd b)) l (combine (map (fun kv => g (fst kv)) l) vs).
Proof.
  revert vs. induction l as [|a l IH]; cbn; intros vs H; [constructor|]. destruct (f (snd a)) as [b|] eqn:E; cbn in H; [|discriminate H]. destruct (mapM _ l) as [bs|] eqn:M; cbn in H; [|discriminate H]. injection H as <-. cbn. constructor; [split; [reflexivity|exact E]|]. apply IH. reflexivity.
Qed.
Lemma mapM_first {A B} (f : A -> result B) l e : mapM f l = Err e <-> exists a x b vs, l = a ++ x :: b /\ mapM f a = Ok vs /\ f x = Err e.
Proof.
  induction l as [|y l IH]; cbn.
  - split; [intro H; discriminate H|]. intros ([|? a] & x & b & vs & H & _); discriminate H.
  - destruct (f y) as [v|z] eqn:E; cbn.
    + split.
      * destruct (mapM f l) as [vs|w]; cbn; intro H; [discriminate H|]. injection H as ->. destruct (proj1 IH eq_refl) as (a & x & b & vs & -> & M & G). exists (y :: a), x, b, (v :: vs). split; [reflexivity|]. split; [cbn; rewrite E; cbn; rewrite M; reflexivity|exact G].
      * intros ([|c a] & x & b & vs & H & M & G); injection H as <- ->; [congruence|]. cbn in M. rewrite E in M. cbn in M. destruct (mapM f a) as [us|] eqn:Q; cbn in M; [|discriminate M].
        assert (R : mapM f (a ++ x :: b) = Err e) by (apply IH; exists a, x, b, us; auto). rewrite R. reflexivity.
    + split.
      * intro H. injection H as <-. exists [], y, l, []. split; [reflexivity|]. split; [reflexivity|exact E].
      * intros ([|c a] & x & b & vs & H & M & G); injection H as <- ->; [rewrite E in G; injection G as <-; reflexivity|]. cbn in M. rewrite E in M. discriminate M.
Qed.
Lemma set_get {A} (d : list (string * A)) k v j : sget (sset d k v) j = if String.eqb j k then Some v else sget d j.
Proof.
  induction d as [|[a b] d IH]; cbn; [reflexivity|]. destruct (String.eqb_spec k a) as [->|D]; cbn.
  - destruct (String.eqb_spec j a); reflexivity.
  - destruct (String.eqb_spec j a) as [->|E]; [|exact IH]. destruct (String.eqb_spec a k) as [->|]; [contradiction|reflexivity].
Qed.
