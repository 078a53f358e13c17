(** Vocabulary for C114 and C115: Biologic settings files as their users see them. *)
From Verif Require Import Py Model_Text Model_Arbin Model_M2B Model_Procedure Model_Mps.

Definition occurs (p s : string) : Prop := exists a b, s = (a ++ p ++ b)%string.
(** no blank at either end *)
Definition trimmed (s : string) : Prop :=
  s = ""%string \/ ((forall c r, s = String c r -> is_space c = false) /\ (forall a c, s = (a ++ String c "")%string -> is_space c = false)).
(** [k] is what stands before the first [sep] *)
Definition ends_before (k sep rest : string) : Prop := forall a b, (k ++ sep ++ rest = a ++ sep ++ b)%string -> (String.length k <= String.length a)%nat.

(** A line of the header in line number [i] (from 0), and the name and value it stands for: an empty line,
    a text, or a setting. *)
Inductive header_line (i : nat) : string -> string -> val -> Prop :=
| empty_line : header_line i "" ("line" ++ str_int (Z.of_nat i)) (VText "blank")
| text_line t : t <> ""%string -> ~ occurs ":" t -> header_line i t t VNone
| setting_line k v : ends_before k " : " v -> v <> "blank"%string ->
    v <> "Metadata"%string -> (forall rest, v <> ("Metadata." ++ rest)%string) ->
    header_line i (k ++ " : " ++ v) k (VText v).
Inductive header_from : nat -> list string -> list (string * val) -> Prop :=
| header_nil i : header_from i [] []
| header_cons i line k v r e : header_line i line k v -> header_from (S i) r e -> header_from i (line :: r) ((k, v) :: e).

(** A file with one technique: header, number and kind of the technique, a table with a row for each name
    and a column for each sequence, further lines. *)
Record file := { f_before : list string; f_num : string; f_kind : string; f_names : list string;
                 f_seqs : list (list string); f_after : list string }.
Definition padded (w : nat) (s : string) : string := (s ++ spaces (w - String.length s))%string.
Definition row_of (w : nat) (name : string) (cells : list string) : string := String.concat "" (map (padded w) (name :: cells)).
Definition rows_of (w : nat) (f : file) : list string :=
  map (fun i => row_of w (nth i (f_names f) "") (map (fun s => nth i s "") (f_seqs f)))%string (seq 0 (length (f_names f))).
Definition lines_of (w : nat) (f : file) : list string :=
  f_before f ++ ["Technique : " ++ f_num f; f_kind f]%string ++ rows_of w f ++ f_after f.
(** line ends of Windows, Unix and old Macintosh files *)
Definition line_end (e : string) : Prop := e = crlf \/ e = String nl "" \/ e = String cr "".

Record well_formed (w : nat) (f : file) (before after : list (string * val)) : Prop := {
  wf_width : (0 < w)%nat;
  wf_before : header_from 0 (f_before f) before;
  wf_after : header_from (length (f_before f) + 2 + length (f_names f)) (f_after f) after;
  wf_one_technique : forall l, In l (f_before f ++ f_kind f :: rows_of w f ++ f_after f) -> ~ occurs "Technique" l;
  wf_lines : forall l, In l (lines_of w f) -> ~ occurs (String cr "") l /\ ~ occurs (String nl "") l;
  wf_num : trimmed (f_num f) /\ ~ occurs ":" (f_num f) /\ ~ occurs "." (f_num f);
  wf_keys : NoDup (map fst (before ++ ("Technique_" ++ f_num f, VText (f_num f))%string :: after));
  wf_names : f_names f <> [] /\ NoDup (f_names f);
  wf_seqs : f_seqs f <> [] /\ forall s, In s (f_seqs f) -> length s = length (f_names f);
  wf_cells : forall x, In x (f_names f ++ List.concat (f_seqs f)) -> trimmed x /\ (String.length x <= w)%nat }.

(** The settings the file stands for. *)
Definition step_of (names : list string) (cells : list val) : val := VDict (combine names cells).
Fixpoint steps_from (k : nat) (names : list string) (seqs : list (list val)) : list (string * val) :=
  match seqs with [] => [] | s :: r => (str_int (Z.of_nat k), step_of names s) :: steps_from (S k) names r end.
Definition settings (before after : list (string * val)) (num kind : string) (names : list string) (seqs : list (list val)) : val :=
  VDict [("Metadata", VDict (before ++ ("Technique_" ++ num, VText num) :: after));
         ("Technique", VDict [(num, VDict [("Type", VText kind); ("Step", VDict (steps_from 1 names seqs))])])]%string.
Definition texts : list (list string) -> list (list val) := map (map VText).

(** ** C115 *)
(** nothing but the listed places differs; a missing place reads as None *)
Definition same_elsewhere (L : list (list string)) (a b : val) : Prop :=
  forall q, (forall p, In p L -> exists pre k l rp rq, p = pre ++ k :: rp /\ q = pre ++ l :: rq /\ k <> l) -> vget q b = vget q a.
(** the number with three decimals closest to [x] *)
Definition three_decimals (x : Q) (v : val) : Prop :=
  exists y z, v = VNum y /\ y * 1000 == inject_Z z /\ Qabs (inject_Z z - x * 1000) <= 1 # 2.
(** The steps of a formation: number of the step, what it is (field, text), what is requested (field, meaning). *)
Record formation_step := { fs_step : string; fs_is : list (string * string); fs_gets : list (string * (val -> Prop)) }.
Definition constant_current (n : string) (amps volts : Q) : formation_step :=
  {| fs_step := n; fs_is := [("ctrl_type", "CC"); ("ctrl1_val_unit", "A"); ("lim1_type", "Ecell"); ("lim1_value_unit", "V")]%string;
     fs_gets := [("ctrl1_val", three_decimals amps); ("lim1_value", three_decimals volts)]%string |}.
Definition constant_voltage (n : string) (volts minutes : Q) : formation_step :=
  {| fs_step := n; fs_is := [("ctrl_type", "CV"); ("ctrl1_val_unit", "V"); ("lim1_type", "Time"); ("lim1_value_unit", "mn")]%string;
     fs_gets := [("ctrl1_val", three_decimals volts); ("lim1_value", three_decimals minutes)]%string |}.
Definition rest_for (n : string) (minutes : Q) : formation_step :=
  {| fs_step := n; fs_is := [("lim1_type", "Time"); ("lim1_value_unit", "mn")]%string; fs_gets := [("lim1_value", three_decimals minutes)]%string |}.
(** whole number of repetitions, the first run not counted *)
Definition repeats (reps : Q) (v : val) : Prop := exists z, v = VText (str_int z) /\ Qabs (inject_Z z) <= Qabs (reps - 1) /\ Qabs (reps - 1 - inject_Z z) < 1 /\ 0 <= (reps - 1) * inject_Z z.
Definition loop_to_8 (n : string) (reps : Q) : formation_step :=
  {| fs_step := n; fs_is := [("ctrl_type", "Loop"); ("ctrl_seq", "8")]%string; fs_gets := [("ctrl_repeat", repeats reps)]%string |}.
Definition formation_steps (r : form_param) : list formation_step :=
  let c := f_capacity_nominal r in
  [constant_current "2" (initial_charge_current_1 r * c) (initial_charge_voltage_1 r);
   constant_voltage "3" (initial_charge_voltage_1 r) (initial_charge_cvhold_1 r);
   rest_for "4" (initial_charge_rest_1 r);
   constant_current "5" (initial_charge_current_2 r * c) (initial_charge_voltage_2 r);
   constant_voltage "6" (initial_charge_voltage_2 r) (initial_charge_cvhold_2 r);
   rest_for "7" (initial_charge_rest_2 r);
   constant_current "8" (initial_discharge_current_1 r * c) (initial_discharge_voltage_1 r);
   constant_current "9" (mid_charge_current_1 r * c) (mid_charge_voltage_1 r);
   constant_current "10" (mid_discharge_current_1 r * c) (mid_discharge_voltage_1 r);
   loop_to_8 "11" (mid_cycle_reps r);
   constant_current "12" (final_charge_current_1 r * c) (final_charge_voltage_1 r);
   constant_current "13" (final_discharge_current_1 r * c) (final_discharge_voltage_1 r);
   constant_voltage "14" (final_discharge_voltage_1 r) (final_discharge_cvhold_1 r)]%string.
Definition place_of (step field : string) : list string := ["Technique"; "1"; "Step"; step; field]%string.
(** the step is what the protocol takes it for *)
Definition identified (obj : val) (s : formation_step) : Prop := forall field t, In (field, t) (fs_is s) -> vget (place_of (fs_step s) field) obj = VText t.
(** the step has what is requested *)
Definition gets (obj : val) (s : formation_step) : Prop := forall field (P : val -> Prop), In (field, P) (fs_gets s) -> P (vget (place_of (fs_step s) field) obj).
(** the places of all requests *)
Definition written (r : form_param) : list (list string) :=
  List.concat (map (fun s => map (fun g => place_of (fs_step s) (fst g)) (fs_gets s)) (formation_steps r)).
