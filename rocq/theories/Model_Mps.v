(** Model of beep/protocol/biologic.py (class Settings): reading and writing settings
    files (.mps) and the formation protocol.
    Simplifications: the text is decoded (ISO-8859-1, one byte per character); paths of pydash are
    split at every "." (no escapes, no list indices in brackets). *)
From Verif Require Import Py Model_Text Model_Arbin Model_M2B Model_Procedure.

(** beep/protocol/biologic.py:64, re.split(r"\r?\n|\r\n?", text): the lines; each of CR LF, LF and CR ends a line.
    [skip]: the character before was a CR. *)
Fixpoint lines_from (s : string) (skip : bool) (acc : string) : list string :=
  match s with
  | EmptyString => [rev_string acc ""]
  | String c r =>
      if Ascii.eqb c nl then if skip then lines_from r false acc else rev_string acc "" :: lines_from r false ""
      else if Ascii.eqb c cr then rev_string acc "" :: lines_from r true ""
      else lines_from r false (String c acc)
  end.
(** beep/protocol/biologic.py:62-134 mps_text_to_schedule_dict *)
Definition mps_lines (text : string) : list string := lines_from text false "".

(** s.split(sep, 1): one or two pieces (for [split_once], beep/protocol/biologic.py:84-98) *)
Fixpoint cut_at (sep s acc : string) : option (string * string) :=
  if prefix sep s then Some (rev_string acc "", substring (String.length sep) (String.length s - String.length sep) s)
  else match s with EmptyString => None | String c r => cut_at sep r (String c acc) end.
(** for [meta_entry], beep/protocol/biologic.py:84-98 *)
Definition split_once (sep s : string) : list string :=
  match cut_at sep s "" with Some (a, b) => [a; b] | None => [s] end.
(** l[-1] of a split, which is never empty (for [technique_num], beep/protocol/biologic.py:103-132) *)
Definition last_piece (l : list string) : string := last l ""%string.

(** beep/utils/__init__.py:21-22 set: missing dictionaries on the way are made.
    pydash leaves other things on the way alone; here that is an error, it does not occur. *)
Fixpoint vset (p : list string) (w v : val) : result val :=
  match p with
  | [] => Ok w
  | k :: r => match v with
              | VDict d => let! x := vset r w (match sget d k with Some x => x | None => VDict [] end) in Ok (VDict (sset d k x))
              | _ => Err TypeError
              end
  end.
(** beep/utils/__init__.py:24-25 get_path; the default None of a missing path is [VNone] *)
Fixpoint vget (p : list string) (v : val) : val :=
  match p with
  | [] => v
  | k :: r => match v with VDict d => match sget d k with Some x => vget r x | None => VNone end | _ => VNone end
  end.
(** beep/utils/__init__.py:27-28 unset: nothing happens if there is nothing at the path *)
Fixpoint vunset (p : list string) (v : val) : val :=
  match p, v with
  | [k], VDict d => VDict (sdel d k)
  | k :: r, VDict d => match sget d k with Some x => VDict (sset d k (vunset r x)) | None => v end
  | _, _ => v
  end.

(** beep/protocol/biologic.py:66-69: the numbers of the lines that contain "Technique" *)
Definition is_technique (line : string) : bool := contains "Technique" line.
(** beep/protocol/biologic.py:62-134 mps_text_to_schedule_dict *)
Fixpoint technique_lines (i : nat) (lines : list string) : list nat :=
  match lines with [] => [] | l :: r => (if is_technique l then [i] else []) ++ technique_lines (S i) r end.
(** beep/protocol/biologic.py:70-80: [lines_to_parse] is what the last turn of the loop leaves; without any turn it is not bound *)
Definition lines_to_parse (n total : nat) (ts : list nat) : result (list nat) :=
  match last_error ts with
  | None => Err UnboundLocalError
  | Some t => Ok (filter (fun i => negb ((S t <=? i)%nat && (i <? S t + n)%nat)) (seq 0 total))
  end.
(** for [store_technique], beep/protocol/biologic.py:103-132 *)
Definition technique_num (line : string) : string := strip (last_piece (str_split ":" line)).
(** beep/protocol/biologic.py:84-98, one line of the metadata; a list of one element is rejected by OrderedDict (99) *)
Definition meta_entry (i : nat) (line : string) : result (string * val) :=
  if contains ":" line then
    if is_technique line then Ok (join "_" (split_once " : " line), VText (strip (last_piece (split_once ":" line))))
    else match split_once " : " line with [k; v] => Ok (k, VText v) | _ => Err ValueError end
  else if String.eqb line "" then Ok ("line" ++ str_int (Z.of_nat i), VText "blank")%string
  else Ok (line, VNone).
(** OrderedDict(pairs): a later pair with the same key replaces the value
    (for [store_steps], beep/protocol/biologic.py:122-132) *)
Definition ordered_dict (l : list (string * val)) : list (string * val) := fold_left (fun d kv => sset d (fst kv) (snd kv)) l [].
(** beep/protocol/biologic.py:111-113 *)
Definition max_length (l : list string) : nat := fold_right Nat.max 0%nat (map String.length l).
(** beep/protocol/biologic.py:114-121: the cells of a row *)
Definition row_cells (w cols : nat) (line : string) : list string := map (fun c => strip (substring (c * w) w line)) (seq 0 cols).
(** for [store_steps], beep/protocol/biologic.py:122-132 *)
Definition column (k : nat) (table : list (list string)) : list string := map (fun r => nth k r ""%string) table.
(** beep/protocol/biologic.py:122-132: the steps of a technique are stored one by one *)
Fixpoint store_steps (num : string) (table : list (list string)) (ks : list nat) (obj : val) : result val :=
  match ks with
  | [] => Ok obj
  | k :: r =>
      let! obj := vset (str_split "." ("Technique." ++ num ++ ".Step." ++ str_int (Z.of_nat k)))
                       (VDict (ordered_dict (map (fun hv => (fst hv, VText (snd hv))) (combine (column 0 table) (column k table))))) obj in
      store_steps num table r obj
  end.
(** beep/protocol/biologic.py:103-132, one technique that starts in line [t] *)
Definition store_technique (w n : nat) (lines : list string) (t : nat) (obj : val) : result val :=
  let num := technique_num (nth t lines ""%string) in
  match nth_error lines (S t) with
  | None => Err IndexError
  | Some kind =>
      let! obj := vset (str_split "." ("Technique." ++ num ++ ".Type")) (VText kind) obj in
      match firstn (n - 1) (skipn (S (S t)) lines) with
      | [] => Err ValueError                                        (* max of nothing *)
      | rows =>
          if (w =? 0)%nat then Err ZeroDivisionError else
          let cols := (max_length rows / w)%nat in
          if (cols =? 0)%nat then Err IndexError                    (* step_matrix[0] *)
          else store_steps num (map (row_cells w cols) rows) (seq 1 (cols - 1)) obj
      end
  end.
(** beep/protocol/biologic.py:62-134 mps_text_to_schedule_dict *)
Fixpoint store_techniques (w n : nat) (lines : list string) (ts : list nat) (obj : val) : result val :=
  match ts with
  | [] => Ok obj
  | t :: r => let! obj := store_technique w n lines t obj in store_techniques w n lines r obj
  end.
(** beep/protocol/biologic.py:61-134 mps_text_to_schedule_dict; [w] is column_width, [n] is step_entry_length *)
Definition settings_of (w n : nat) (text : string) : result val :=
  let lines := mps_lines text in
  let ts := technique_lines 0 lines in
  let! is := lines_to_parse n (length lines) ts in
  let! meta := mapM (fun i => meta_entry i (nth i lines ""%string)) is in
  store_techniques w n lines ts (VDict [("Metadata"%string, VDict (ordered_dict meta))]).
(** the defaults of from_file and of mps_text_to_schedule_dict (beep/protocol/biologic.py:36, 62) *)
Definition column_width : nat := 20.
(** beep/protocol/biologic.py:36, 62 *)
Definition step_entry_length : nat := 63.

Section Writing.
  (** str() of what is not a text (for [py_str], beep/protocol/biologic.py:161-166) *)
  Variable show : val -> string.
  (** for [table_row], beep/protocol/biologic.py:161-166 *)
  Definition py_str (v : val) : string := match v with VText s => s | v => show v end.
  (** d[k1][k2]... (for [table_row], beep/protocol/biologic.py:161-166) *)
  Fixpoint item (p : list string) (v : val) : result val :=
    match p with
    | [] => Ok v
    | k :: r => match v with
                | VDict d => match sget d k with Some x => item r x | None => Err KeyError end
                | _ => Err TypeError
                end
    end.
  (** for [technique_block], beep/protocol/biologic.py:153-167 *)
  Definition as_text (v : val) : result string := match v with VText s => Ok s | _ => Err TypeError end.
  (** for [technique_block], beep/protocol/biologic.py:153-167 *)
  Definition keys_of (v : val) : result (list string) := match v with VDict d => Ok (map fst d) | _ => Err AttributeError end.
  (** beep/protocol/biologic.py:161-166: one row of a technique *)
  Definition table_row (w : nat) (data : val) (num key : string) (steps : list string) : result string :=
    let! cells := mapM (fun s => let! v := item ["Technique"%string; num; "Step"%string; s; key] data in Ok (ljust w (py_str v))) steps in
    Ok (ljust w key ++ String.concat "" cells)%string.
  (** beep/protocol/biologic.py:153-167: the lines of a technique *)
  Definition technique_block (w : nat) (data : val) (key : string) : result (list string) :=
    let! v := item ["Metadata"%string; key] data in
    let! num := as_text v in
    let! t := item ["Technique"%string; num; "Type"%string] data in
    let! kind := as_text t in
    let! first := item ["Technique"%string; num; "Step"%string; "1"%string] data in
    let! names := keys_of first in
    let! all := item ["Technique"%string; num; "Step"%string] data in
    let! steps := keys_of all in
    let! rows := mapM (fun key => table_row w data num key steps) names in
    Ok ((join " : " [hd ""%string (str_split "_" key); num]) :: kind :: rows).
  (** beep/protocol/biologic.py:168-175: any other line, and the data after [unset] of its value; None is no path *)
  Definition meta_line (data : val) (key : string) : result (string * val) :=
    let! v := item ["Metadata"%string; key] data in
    match v with
    | VNone => Ok (key, data)
    | VText t => Ok ((if String.eqb t "blank" then "" else key ++ " : " ++ t)%string, vunset (str_split "." t) data)
    | _ => Err TypeError
    end.
  (** beep/protocol/biologic.py:152-175 *)
  Fixpoint mps_blocks (w : nat) (keys : list string) (data : val) : result (list string) :=
    match keys with
    | [] => Ok []
    | key :: r =>
        if contains "Technique_" key then
          let! b := technique_block w data key in
          let! more := mps_blocks w r data in Ok (b ++ more)
        else
          let! (line, data) := meta_line data key in
          let! more := mps_blocks w r data in Ok (line :: more)
    end.
  (** beep/protocol/biologic.py:136-180 to_file: the text written, with the default line separator *)
  Definition settings_text (w : nat) (data : val) : result string :=
    let! meta := item ["Metadata"%string] data in
    let! keys := keys_of meta in
    let! blocks := mps_blocks w keys data in
    Ok (join crlf blocks).
End Writing.

(** The parameters formation_protocol_bcs reads.  Simplification: all are present and numbers.
    (for [formation_actions], beep/protocol/biologic.py:182-306) *)
Record form_param := {
  f_capacity_nominal : Q; initial_charge_current_1 : Q; initial_charge_voltage_1 : Q; initial_charge_cvhold_1 : Q;
  initial_charge_rest_1 : Q; initial_charge_current_2 : Q; initial_charge_voltage_2 : Q; initial_charge_cvhold_2 : Q;
  initial_charge_rest_2 : Q; initial_discharge_current_1 : Q; initial_discharge_voltage_1 : Q; mid_charge_current_1 : Q;
  mid_charge_voltage_1 : Q; mid_discharge_current_1 : Q; mid_discharge_voltage_1 : Q; mid_cycle_reps : Q;
  final_charge_current_1 : Q; final_charge_voltage_1 : Q; final_discharge_current_1 : Q; final_discharge_voltage_1 : Q;
  final_discharge_cvhold_1 : Q }.
(** assert self.get_path(p) == t; self.set(p, v)
    (for [perform], beep/protocol/biologic.py:182-306 formation_protocol_bcs) *)
Inductive fact := Asserts (p : list string) (t : string) | Sets (p : list string) (v : val).
(** for [formation_actions], beep/protocol/biologic.py:182-306 *)
Definition cell (step field : string) : list string := ["Technique"; "1"; "Step"; step; field]%string.
(** An exception leaves what has been set before.
    (for [formation], beep/protocol/biologic.py:182-306 formation_protocol_bcs) *)
Fixpoint perform (prog : list fact) (obj : val) : val * option exn :=
  match prog with
  | [] => (obj, None)
  | Asserts p t :: r => if text_is t (vget p obj) then perform r obj else (obj, Some AssertionError)
  | Sets p v :: r => match vset p v obj with Ok obj' => perform r obj' | Err e => (obj, Some e) end
  end.
(** float(round(x, 3)) (for [formation_actions], beep/protocol/biologic.py:182-306) *)
Definition milli (x : Q) : val := VNum (inject_Z (round_even (x * 1000)) / 1000).
(** int(x): towards zero.  Simplification: the number is kept as the text str() gives for it.
    (for [formation_actions], beep/protocol/biologic.py:182-306) *)
Definition truncated (x : Q) : val := VText (str_int (Z.quot (Qnum x) (Z.pos (Qden x)))).
(** beep/protocol/biologic.py:182-306 formation_protocol_bcs, line by line *)
Definition formation_actions (r : form_param) : list fact :=
  let amps x := milli (x * f_capacity_nominal r) in
  [Asserts ["Metadata"; "Cycle Definition"]%string "Charge/Discharge alternance";                            (* 192 *)
   (* 194-216: initial charge *)
   Asserts (cell "2" "ctrl_type") "CC"; Asserts (cell "2" "ctrl1_val_unit") "A"; Sets (cell "2" "ctrl1_val") (amps (initial_charge_current_1 r));
   Asserts (cell "2" "lim1_type") "Ecell"; Asserts (cell "2" "lim1_value_unit") "V"; Sets (cell "2" "lim1_value") (milli (initial_charge_voltage_1 r));
   Asserts (cell "3" "ctrl_type") "CV"; Asserts (cell "3" "ctrl1_val_unit") "V"; Sets (cell "3" "ctrl1_val") (milli (initial_charge_voltage_1 r));
   Asserts (cell "3" "lim1_type") "Time"; Asserts (cell "3" "lim1_value_unit") "mn"; Sets (cell "3" "lim1_value") (milli (initial_charge_cvhold_1 r));
   Asserts (cell "4" "lim1_type") "Time"; Asserts (cell "4" "lim1_value_unit") "mn"; Sets (cell "4" "lim1_value") (milli (initial_charge_rest_1 r));
   (* 218-239 *)
   Asserts (cell "5" "ctrl_type") "CC"; Asserts (cell "5" "ctrl1_val_unit") "A"; Sets (cell "5" "ctrl1_val") (amps (initial_charge_current_2 r));
   Asserts (cell "5" "lim1_type") "Ecell"; Asserts (cell "5" "lim1_value_unit") "V"; Sets (cell "5" "lim1_value") (milli (initial_charge_voltage_2 r));
   Asserts (cell "6" "ctrl_type") "CV"; Asserts (cell "6" "ctrl1_val_unit") "V"; Sets (cell "6" "ctrl1_val") (milli (initial_charge_voltage_2 r));
   Asserts (cell "6" "lim1_type") "Time"; Asserts (cell "6" "lim1_value_unit") "mn"; Sets (cell "6" "lim1_value") (milli (initial_charge_cvhold_2 r));
   Asserts (cell "7" "lim1_type") "Time"; Asserts (cell "7" "lim1_value_unit") "mn"; Sets (cell "7" "lim1_value") (milli (initial_charge_rest_2 r));
   (* 241-250: initial discharge *)
   Asserts (cell "8" "ctrl_type") "CC"; Asserts (cell "8" "ctrl1_val_unit") "A"; Sets (cell "8" "ctrl1_val") (amps (initial_discharge_current_1 r));
   Asserts (cell "8" "lim1_type") "Ecell"; Asserts (cell "8" "lim1_value_unit") "V"; Sets (cell "8" "lim1_value") (milli (initial_discharge_voltage_1 r));
   (* 252-276: mid cycle *)
   Asserts (cell "9" "ctrl_type") "CC"; Asserts (cell "9" "ctrl1_val_unit") "A"; Sets (cell "9" "ctrl1_val") (amps (mid_charge_current_1 r));
   Asserts (cell "9" "lim1_type") "Ecell"; Asserts (cell "9" "lim1_value_unit") "V"; Sets (cell "9" "lim1_value") (milli (mid_charge_voltage_1 r));
   Asserts (cell "10" "ctrl_type") "CC"; Asserts (cell "10" "ctrl1_val_unit") "A"; Sets (cell "10" "ctrl1_val") (amps (mid_discharge_current_1 r));
   Asserts (cell "10" "lim1_type") "Ecell"; Asserts (cell "10" "lim1_value_unit") "V"; Sets (cell "10" "lim1_value") (milli (mid_discharge_voltage_1 r));
   Asserts (cell "11" "ctrl_type") "Loop"; Asserts (cell "11" "ctrl_seq") "8"; Sets (cell "11" "ctrl_repeat") (truncated (mid_cycle_reps r - 1));
   (* 278-304: final cycle *)
   Asserts (cell "12" "ctrl_type") "CC"; Asserts (cell "12" "ctrl1_val_unit") "A"; Sets (cell "12" "ctrl1_val") (amps (final_charge_current_1 r));
   Asserts (cell "12" "lim1_type") "Ecell"; Asserts (cell "12" "lim1_value_unit") "V"; Sets (cell "12" "lim1_value") (milli (final_charge_voltage_1 r));
   Asserts (cell "13" "ctrl_type") "CC"; Asserts (cell "13" "ctrl1_val_unit") "A"; Sets (cell "13" "ctrl1_val") (amps (final_discharge_current_1 r));
   Asserts (cell "13" "lim1_type") "Ecell"; Asserts (cell "13" "lim1_value_unit") "V"; Sets (cell "13" "lim1_value") (milli (final_discharge_voltage_1 r));
   Asserts (cell "14" "ctrl_type") "CV"; Asserts (cell "14" "ctrl1_val_unit") "V"; Sets (cell "14" "ctrl1_val") (milli (final_discharge_voltage_1 r));
   Asserts (cell "14" "lim1_type") "Time"; Asserts (cell "14" "lim1_value_unit") "mn"; Sets (cell "14" "lim1_value") (milli (final_discharge_cvhold_1 r))].
(** beep/protocol/biologic.py:182-306 formation_protocol_bcs *)
Definition formation (r : form_param) (obj : val) : val * option exn := perform (formation_actions r) obj.
