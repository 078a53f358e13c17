(** Vocabulary for C145. *)
From Verif Require Import Py Model_Options.
Local Open Scope string_scope.

Section Options.
  Context {L : Type} (literal_eval : string -> result (value L)).
  (** what an option becomes: flags, missing values and the words True and False; a literal; or the text itself if it is none *)
  Definition option_value (x y : value L) : Prop :=
    ((forall s, x <> Text s) /\ y = x) \/ (x = Text "True" /\ y = Flag true) \/ (x = Text "False" /\ y = Flag false) \/
    exists s, x = Text s /\ s <> "True" /\ s <> "False" /\ (literal_eval s = Ok y \/ ((literal_eval s = Err ValueError \/ literal_eval s = Err (OtherError "SyntaxError")) /\ y = x)).
  (** texts whose evaluation ends in another error *)
  Definition passes_on (x : value L) (e : exn) : Prop :=
    exists s, x = Text s /\ s <> "True" /\ s <> "False" /\ literal_eval s = Err e /\ e <> ValueError /\ e <> OtherError "SyntaxError".
  (** a text in single quotes is a literal of the text *)
  Fixpoint plain (s : string) : Prop := match s with "" => True | String c r => c <> "'"%char /\ c <> "\"%char /\ c <> "010"%char /\ c <> "013"%char /\ c <> "000"%char /\ plain r end.
  Definition reads_quotes : Prop := forall s, plain s -> literal_eval ("'" ++ s ++ "'") = Ok (Text s).
End Options.
