(** Vocabulary for C146. *)
From Verif Require Import Py Model_B2MConvert.

(** all files but [out] are as they were *)
Definition only_changed (out : string) (fs fs' : files) : Prop := forall f, f <> out -> fs' f = fs f.
Definition unchanged (fs fs' : files) : Prop := forall f, fs' f = fs f.
Definition lf : string := String "010" "".
Definition crlf : string := String "013" lf.
