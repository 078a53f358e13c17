(** Vocabulary for C141. *)
From Verif Require Import Py Model_Identity.

Definition dash_free (s : string) : Prop := ~ In "-"%char (list_ascii_of_string s).
(** structured in the sense of the id: some frame is there *)
Definition some_frame {Frame} (d : datapath Frame) : Prop := d_summary d <> None \/ d_data d <> None \/ d_diag_summary d <> None \/ d_diag_data d <> None.
(** all that the id shows, except for the last path, is free of dashes *)
Definition plain {Frame} (d : datapath Frame) : Prop :=
  dash_free (shown (d_barcode d)) /\ dash_free (shown (d_channel d)) /\ dash_free (shown (d_protocol d)) /\ dash_free (shown (d_schema d)) /\ dash_free (shown (path_of d "raw")).
(** the same for the id *)
Definition alike {Frame} (a b : datapath Frame) : Prop :=
  shown (d_barcode a) = shown (d_barcode b) /\ shown (d_channel a) = shown (d_channel b) /\ shown (d_protocol a) = shown (d_protocol b) /\ shown (d_schema a) = shown (d_schema b) /\
  (some_frame a <-> some_frame b) /\ d_legacy a = d_legacy b /\ shown (path_of a "raw") = shown (path_of b "raw") /\ shown (path_of a "structured") = shown (path_of b "structured").
