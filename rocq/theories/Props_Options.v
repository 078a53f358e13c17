(** C145: the options of the script that processes files again. *)
From Verif Require Import Py Model_Options Spec_Options Proofs_Options.
Local Open Scope string_scope.

Section Options.
  Context {L : Type} (literal_eval : string -> result (value L)).
  (** Every option is in the result under its name without the two dashes, in the same order: a flag or a missing value as it is, the
      words True and False as flags, a literal as its value, any other text as it is. *)
  Theorem C145_values args d : NoDup (map fst args) -> (forall k v, In (k, v) args -> exists name, k = "--" ++ name) -> eval_args literal_eval args = Ok d ->
    Forall2 (fun a b => fst a = "--" ++ fst b /\ option_value literal_eval (snd a) (snd b)) args d.
  Proof.
    intros N D H. unfold eval_args in H. destruct (mapM _ args) as [vs|e] eqn:M; cbn in H; [|discriminate H]. injection H as <-. apply (mapM_pairs _ without_dashes) in M.
    set (l := combine _ vs) in *. assert (R : Forall2 (fun a b => fst a = "--" ++ fst b /\ option_value literal_eval (snd a) (snd b)) args l).
    { clearbody l. clear N. induction M as [|[k v] b args l [E P] M IH]; constructor; [|apply IH; intros k' v' I; apply (D k' v'); right; exact I]. cbn [fst snd] in *. split; [|apply parse_ok, P]. destruct (D k v) as (name & ->); [left; reflexivity|]. rewrite E. reflexivity. }
    rewrite set_all; [exact R|]. cbn [app]. clearbody l. clear M D vs. induction R as [|a b args l [E _] R IH]; [constructor|]. cbn [map] in N |- *. inversion N as [|? ? N1 N2]; subst. constructor; [|apply IH, N2].
    intro I. apply N1. rewrite E. clear - I R. induction R as [|a' b' args l [E' _] R IH]; [destruct I|]. cbn [map] in I |- *. destruct I as [I|I]; [left; rewrite E', I; reflexivity|right; apply IH, I].
  Qed.
  (** Only errors of the evaluation other than ValueError and SyntaxError are passed on, from the first option that has one. *)
  Theorem C145_errors args e : eval_args literal_eval args = Err e <->
    exists a k x b, (args = a ++ (k, x) :: b)%list /\ passes_on literal_eval x e /\ forall j y, In (j, y) a -> exists v, option_value literal_eval y v.
  Proof.
    unfold eval_args. transitivity (mapM (fun kv => parse_arg literal_eval (snd kv)) args = Err e); [destruct (mapM _ args); cbn; split; intro H; [discriminate H|discriminate H|injection H as <-; reflexivity|injection H as <-; reflexivity]|]. rewrite mapM_first. split.
    - intros (a & [k x] & b & vs & E & M & P). exists a, k, x, b. split; [exact E|]. split; [apply parse_err, P|]. clear E P. revert vs M. induction a as [|[i z] a IH]; cbn; intros vs M j y I; [destruct I|].
      destruct (parse_arg literal_eval z) as [v|] eqn:Z; cbn in M; [|discriminate M]. destruct (mapM _ a) as [us|] eqn:U; cbn in M; [|discriminate M]. destruct I as [I|I]; [injection I as <- <-; exists v; apply parse_ok, Z|apply (IH us eq_refl j y I)].
    - intros (a & k & x & b & E & P & A). assert (M : exists vs, mapM (fun kv => parse_arg literal_eval (snd kv)) a = Ok vs).
      { clear E. induction a as [|[i z] a IH]; cbn; [eexists; reflexivity|]. destruct (A i z (or_introl eq_refl)) as (v & V). apply parse_ok in V. rewrite V. cbn. destruct IH as (vs & M); [intros j y I; apply (A j y); right; exact I|]. rewrite M. eexists. reflexivity. }
      destruct M as (vs & M). exists a, (k, x), b, vs. split; [exact E|]. split; [exact M|]. apply parse_err, P.
  Qed.
  (** The defaults in the usage text, which are in quotes, come out without them. *)
  Theorem C145_defaults : reads_quotes literal_eval -> eval_args literal_eval default_options =
    Ok [("help", Flag false); ("version", Flag false); ("mode", Text "test"); ("s3_prefix", Text "d3Batt/raw/arbin"); ("s3_output", Text "d3Batt/structure")].
  Proof.
    intro R. assert (P : forall s, plain s -> parse_arg literal_eval (Text ("'" ++ s ++ "'")) = Ok (Text s)). { intros s Q. unfold parse_arg, fix_boolean. cbn [append String.eqb Ascii.eqb Bool.eqb]. cbv iota. cbn [evaluated]. change (String "'" (s ++ "'")) with ("'" ++ s ++ "'"). rewrite (R s Q). reflexivity. }
    unfold eval_args, default_options. cbn [mapM snd]. change "'test'" with ("'" ++ "test" ++ "'"). change "'d3Batt/raw/arbin'" with ("'" ++ "d3Batt/raw/arbin" ++ "'"). change "'d3Batt/structure'" with ("'" ++ "d3Batt/structure" ++ "'").
    rewrite !P by (cbn; intuition discriminate). reflexivity.
  Qed.
End Options.
(** An option is an attribute; what is set is got; a name that is none is a KeyError. *)
Theorem C145_attributes {A} (d : list (string * A)) k v : get_attribute (set_attribute d k v) k = Ok v /\ (forall j, j <> k -> get_attribute (set_attribute d k v) j = get_attribute d j) /\
  (forall j e, get_attribute d j = Err e <-> e = KeyError /\ ~ In j (map fst d)).
Proof.
  unfold get_attribute, set_attribute. split; [rewrite set_get, String.eqb_refl; reflexivity|]. split.
  - intros j D. rewrite set_get. destruct (String.eqb_spec j k); [contradiction|reflexivity].
  - intros j e. induction d as [|[a b] d IH]; cbn; [split; [intro H; injection H as <-; split; [reflexivity|intros []]|intros [-> _]; reflexivity]|].
    destruct (String.eqb_spec j a) as [->|D]; [split; [intro H; discriminate H|intros [_ N]; exfalso; apply N; left; reflexivity]|]. fold (@sget A) in *. rewrite IH. split; (intros [E N]; split; [exact E|intuition congruence]).
Qed.
(** A text does not always stay a text: a prefix that spells a number becomes one. *)
Theorem C145_text_refuted : ~ forall literal_eval : string -> result (value Z), (forall s, s = "2020" -> literal_eval s = Ok (Literal 2020%Z)) ->
  forall s d, eval_args literal_eval [("--s3_prefix", Text s)] = Ok d -> s <> "True" -> s <> "False" -> get_attribute d "s3_prefix" = Ok (Text s).
Proof.
  intro H. specialize (H (fun s => if String.eqb s "2020" then Ok (Literal 2020%Z) else Err ValueError)). assert (A : get_attribute [("s3_prefix", Literal 2020%Z)] "s3_prefix" = Ok (Text "2020")).
  { apply H; [intros s ->; reflexivity|reflexivity|discriminate|discriminate]. } discriminate A.
Qed.

(** Non-vacuity. *)
Example options_example : eval_args (L := Z) (fun s => if String.eqb s "7" then Ok (Literal 7%Z) else if String.eqb s "a b" then Err (OtherError "SyntaxError") else Err ValueError)
    [("--mode", Text "stage"); ("--n", Text "7"); ("--flag", Text "False"); ("--none", Nothing); ("--words", Text "a b")]
  = Ok [("mode", Text "stage"); ("n", Literal 7%Z); ("flag", Flag false); ("none", Nothing); ("words", Text "a b")].
Proof. reflexivity. Qed.
Example error_example : eval_args (L := Z) (fun s => Err (OtherError "RecursionError")) [("--mode", Text "((")] = Err (OtherError "RecursionError").
Proof. reflexivity. Qed.
(** what is between the first and the last quote *)
Definition unquoted (s : string) : string := substring 1 (String.length s - 2)%nat s.
Example quotes_example : reads_quotes (L := Z) (fun s => Ok (Text (unquoted s))).
Proof.
  intros s _. assert (N : forall (s t : string), substring 0 (String.length s) (s ++ t) = s). { clear. intros s t. induction s as [|c s IH]; cbn; [destruct t; reflexivity|rewrite IH; reflexivity]. }
  unfold unquoted. assert (E : (String.length ("'" ++ s ++ "'") - 2 = String.length s)%nat). { cbn. clear N. induction s as [|c s IH]; cbn; [reflexivity|]. destruct s; cbn in *; lia. }
  rewrite E. cbn. rewrite N. reflexivity.
Qed.

Print Assumptions C145_values.
Print Assumptions C145_errors.
Print Assumptions C145_defaults.
Print Assumptions C145_attributes.
Print Assumptions C145_text_refuted.
