(** Model of BEEPDatapath.semiunique_id (beep/structure/base.py:464-484).
    Simplification: barcode, channel, protocol, schema and paths are texts or None; numbers are given by their texts. *)
From Verif Require Import Py.

(** the part of a datapath the id is made of; [Frame] stands for data frames (beep/structure/base.py:1228-1234) *)
Record datapath (Frame : Type) := {
  d_barcode : option string; d_channel : option string; d_protocol : option string; d_schema : option string;
  d_summary : option Frame; d_data : option Frame; d_diag_summary : option Frame; d_diag_data : option Frame;
  d_legacy : bool; d_paths : list (string * option string) }.
Arguments d_barcode {Frame}. Arguments d_channel {Frame}. Arguments d_protocol {Frame}. Arguments d_schema {Frame}.
Arguments d_summary {Frame}. Arguments d_data {Frame}. Arguments d_diag_summary {Frame}. Arguments d_diag_data {Frame}.
Arguments d_legacy {Frame}. Arguments d_paths {Frame}.
(** str() of a text or None (for [semiunique_id], beep/structure/base.py:474-483) *)
Definition shown (o : option string) : string := match o with Some s => s | None => "None"%string end.
(** str() of a truth value (for [semiunique_id], beep/structure/base.py:478-479) *)
Definition shown_bool (b : bool) : string := if b then "True"%string else "False"%string.
(** beep/structure/base.py:1228-1234 is_structured *)
Definition is_structured {Frame} (d : datapath Frame) : bool :=
  existsb (fun o : option Frame => match o with Some _ => true | None => false end) [d_summary d; d_data d; d_diag_summary d; d_diag_data d].
(** paths.get(key, None) (for [semiunique_id], beep/structure/base.py:481-482) *)
Definition path_of {Frame} (d : datapath Frame) (k : string) : option string := match sget (d_paths d) k with Some o => o | None => None end.
(** beep/structure/base.py:464-484 semiunique_id *)
Definition semiunique_id {Frame} (d : datapath Frame) : string :=
  ("barcode:" ++ shown (d_barcode d) ++ "-" ++ "channel:" ++ shown (d_channel d) ++ "-" ++ "protocol:" ++ shown (d_protocol d) ++ "-" ++
   "schema:" ++ shown (d_schema d) ++ "-" ++ "structured:" ++ shown_bool (is_structured d) ++ "-" ++ "legacy:" ++ shown_bool (d_legacy d) ++
   "-raw_path:" ++ shown (path_of d "raw") ++ "-structured_path:" ++ shown (path_of d "structured"))%string.
