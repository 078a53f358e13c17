(** Vocabulary for C144. *)
From Verif Require Import Py Model_Inspect.
Local Open Scope string_scope.

(** [s] ends in [e] *)
Definition ends (e s : string) : Prop := exists a, s = a ++ e.
Definition json_name (s : string) : Prop := ends ".json" s \/ ends ".json.gz" s.
(** errors after which another loader is tried *)
Definition tried_again (e : exn) : Prop := In e [AttributeError; ValueError; KeyError].
(** a line of the screen *)
Definition line (s : string) : string := String "010"%char s.
Definition indent (s : string) : string := String "009"%char s.
(** a heading that is directly followed by [body] *)
Definition section (out : list string) (heading : string) (body : list string) : Prop := exists a b, (out = a ++ heading :: body ++ b)%list.
(** the texts of [l] are printed in this order *)
Inductive in_order : list string -> list string -> Prop :=
| done_all out : in_order [] out
| found_next x l out : in_order l out -> in_order (x :: l) (x :: out)
| not_yet x l out : in_order l out -> in_order l (x :: out).
Fixpoint no_line_feed (s : string) : Prop := match s with "" => True | String c r => c <> "010"%char /\ no_line_feed r end.
Fixpoint lines (l : list string) : string := match l with [] => "" | [x] => x | x :: r => x ++ String "010"%char (lines r) end.
(** [t] is [s] with a tab before every line *)
Definition indented (s t : string) : Prop := exists l, l <> [] /\ Forall no_line_feed l /\ s = lines l /\ t = lines (map indent l).

Section Inspect.
  Context {V F : Type} (loadfn : string -> result (loaded V F)) (auto_load_processed auto_load : string -> result (obj V F)) (as_dict : obj V F -> result V).
  (** loading with loadfn, and storing what was loaded, end in [e] *)
  Definition first_fails (file : string) (e : exn) : Prop :=
    loadfn file = Err e \/ (loadfn file = Ok Plain /\ e = AttributeError) \/ exists o, loadfn file = Ok (Object o) /\ as_dict o = Err e.
  (** the object a file is taken for *)
  Definition subject (file : string) (o : obj V F) : Prop :=
    (loadfn file = Ok (Object o) /\ exists d, as_dict o = Ok d) \/
    (exists e, first_fails file e /\ tried_again e /\ ((json_name file /\ auto_load_processed file = Ok o) \/ (~ json_name file /\ auto_load file = Ok o))).
  (** the error when there is none *)
  Definition no_subject (file : string) (e : exn) : Prop :=
    (first_fails file e /\ ~ tried_again e) \/
    (e = ValueError /\ exists x, first_fails file x /\ tried_again x /\ ((json_name file /\ exists y, auto_load_processed file = Err y) \/ (~ json_name file /\ exists y, auto_load file = Err y))).
End Inspect.
