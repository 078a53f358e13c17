(** Model of the Biologic reader (beep/structure/biologic.py) and of the cycle
    numbering of exported data (beep/protocol/maccor_to_biologic_mb.py:1325-1511). *)
From Verif Require Import Py Num.

(** beep/structure/biologic.py:279-296 CycleTransitionRules; the same fields as
    CycleAdvancementRules, maccor_to_biologic_mb.py:1325-1341.  The two
    dictionaries map (source, target) to a count. *)
Definition pair_eqb (p q : Z * Z) : bool := Z.eqb (fst p) (fst q) && Z.eqb (snd p) (snd q).
(** for [rules], beep/structure/biologic.py:279-296 *)
Definition transitions := list ((Z * Z) * Z).
(** for [count_of], beep/structure/biologic.py:279-296 *)
Record rules := {
  tech_num : Z; tech_does_loop : bool; adv_cycle_on_start : Z; adv_cycle_on_tech_loop : Z;
  adv_cycle_seq_transitions : transitions; debug_adv_cycle_on_step_transitions : transitions }.
(** beep/structure/biologic.py:279-296 *)
Definition count_of (r : rules) (p : Z * Z) : Z :=
  match d_get pair_eqb (adv_cycle_seq_transitions r) p with Some n => n | None => 0%Z end.

(** beep/structure/biologic.py:245-262, and the same loop at maccor_to_biologic_mb.py:1489-1508.
    A record is (Ns, Loop); Ns and Loop are already integers. *)
Fixpoint number_loop (r : rules) (cycle prev_seq prev_loop : Z) (recs : list (Z * Z)) : list Z :=
  match recs with
  | [] => []
  | (seq, loop) :: rest =>
      let cycle := if negb (Z.eqb loop prev_loop) then (cycle + adv_cycle_on_tech_loop r)%Z
                   else if negb (Z.eqb seq prev_seq) then (cycle + count_of r (prev_seq, seq))%Z
                   else cycle in
      cycle :: number_loop r cycle seq loop rest
  end.
(** beep/structure/biologic.py:263-274 *)
Fixpoint number_seq (r : rules) (cycle prev_seq : Z) (ns : list Z) : list Z :=
  match ns with
  | [] => []
  | seq :: rest =>
      let cycle := if negb (Z.eqb seq prev_seq) then (cycle + count_of r (prev_seq, seq))%Z else cycle in
      cycle :: number_seq r cycle seq rest
  end.
(** beep/structure/biologic.py:217-276 get_cycle_index.  [loop_list[indx]] beyond the end raises
    IndexError; surplus entries are ignored; an empty or absent loop_list is the
    same.  Reading the rules file is [rules_of_json] below. *)
Definition get_cycle_index (ns_list : list Z) (r : rules) (loop_list : option (list Z)) : result (list Z) :=
  match ns_list with
  | [] => Err IndexError
  | n0 :: _ =>
      match loop_list with
      | Some ((l0 :: _) as loops) =>
          if (length loops <? length ns_list)%nat then Err IndexError
          else Ok (number_loop r (1 + adv_cycle_on_start r) n0 l0 (combine ns_list loops))
      | _ => Ok (number_seq r (1 + adv_cycle_on_start r) n0 ns_list)
      end
  end.

(** beep/protocol/maccor_to_biologic_mb.py:1464-1511 add_cycle_nums_to_csvs: one entry per
    technique, the cycle number is carried from one technique to the next.  The
    result is the written cycle_index columns. *)
Fixpoint add_cycle_nums (cycle : Z) (techs : list (rules * list (Z * Z))) : result (list (list Z)) :=
  match techs with
  | [] => Ok []
  | (r, recs) :: rest =>
      match recs with
      | [] => Err IndexError
      | (n0, l0) :: _ =>
          let nums := number_loop r (cycle + adv_cycle_on_start r) n0 l0 recs in
          let! more := add_cycle_nums (last nums cycle) rest in
          Ok (nums :: more)
      end
  end.
(** beep/protocol/maccor_to_biologic_mb.py:1464-1511 add_cycle_nums_to_csvs *)
Definition add_cycle_nums_to_csvs (techs : list (rules * list (Z * Z))) : result (list (list Z)) :=
  add_cycle_nums 1 techs.

(** JSON values that occur in a rules file. (for [transition_obj], beep/structure/biologic.py:313-349) *)
Inductive json := JInt (z : Z) | JBool (b : bool) | JList (l : list json) | JObj (o : list (string * json)).

(** beep/structure/biologic.py:313-349, maccor_to_biologic_mb.py:1354-1395: the object handed to
    json.dumps.  Simplification: json.dumps and json.loads are inverse to each
    other on such objects and are left out. *)
Definition transition_obj (e : (Z * Z) * Z) : json :=
  JObj [("source", JInt (fst (fst e))); ("target", JInt (snd (fst e))); ("adv_cycle_count", JInt (snd e))]%string.
(** beep/structure/biologic.py:313-349 *)
Definition json_of_rules (r : rules) : json :=
  JObj [("tech_num", JInt (tech_num r));
        ("tech_does_loop", JBool (tech_does_loop r));
        ("adv_cycle_on_start", JInt (adv_cycle_on_start r));
        ("adv_cycle_on_tech_loop", JInt (adv_cycle_on_tech_loop r));
        ("adv_cycle_seq_transitions", JList (map transition_obj (adv_cycle_seq_transitions r)));
        ("debug_adv_cycle_on_step_transitions", JList (map transition_obj (debug_adv_cycle_on_step_transitions r)))]%string.

(** data[key]; a value of another JSON type is a TypeError (Python would carry it along).
    (for [parse_transitions], beep/structure/biologic.py:359-367) *)
Definition field (o : json) (k : string) : result json :=
  match o with JObj l => match sget l k with Some v => Ok v | None => Err KeyError end | _ => Err TypeError end.
(** for [parse_transitions], beep/structure/biologic.py:359-367 *)
Definition as_int (j : json) : result Z := match j with JInt z => Ok z | _ => Err TypeError end.
(** for [rules_of_json], beep/structure/biologic.py:351-380 *)
Definition as_bool (j : json) : result bool := match j with JBool b => Ok b | _ => Err TypeError end.
(** for [rules_of_json], beep/structure/biologic.py:351-380 *)
Definition as_list (j : json) : result (list json) := match j with JList l => Ok l | _ => Err TypeError end.
(** beep/structure/biologic.py:359-367 *)
Fixpoint parse_transitions (acc : transitions) (l : list json) : result transitions :=
  match l with
  | [] => Ok acc
  | d :: rest =>
      let! s := bind (field d "source") as_int in
      let! t := bind (field d "target") as_int in
      let! n := bind (field d "adv_cycle_count") as_int in
      parse_transitions (d_set pair_eqb acc (s, t) n) rest
  end.
(** beep/structure/biologic.py:351-380 parse_json *)
Definition rules_of_json (j : json) : result rules :=
  let! tn := bind (field j "tech_num") as_int in
  let! tl := bind (field j "tech_does_loop") as_bool in
  let! st := bind (field j "adv_cycle_on_start") as_int in
  let! lp := bind (field j "adv_cycle_on_tech_loop") as_int in
  let! l1 := bind (field j "adv_cycle_seq_transitions") as_list in
  let! tr := parse_transitions [] l1 in
  let! l2 := bind (field j "debug_adv_cycle_on_step_transitions") as_list in
  let! db := parse_transitions [] l2 in
  Ok {| tech_num := tn; tech_does_loop := tl; adv_cycle_on_start := st; adv_cycle_on_tech_loop := lp;
        adv_cycle_seq_transitions := tr; debug_adv_cycle_on_step_transitions := db |}.

(** The header search loop, beep/structure/biologic.py:45-56 and novonix.py:36-66: [i] is the
    number of the line about to be read, [fuel] the number of further readline
    calls, at most search_lines of which happen.  After the end of the file
    readline returns the empty string. *)
Fixpoint search_header (is_header : string -> bool) (search_lines i : nat) (fuel : nat) (lines : list string) : result nat :=
  match fuel with
  | O => Err LookupError
  | S fuel' =>
      let line := match lines with [] => ""%string | l :: _ => l end in
      if (search_lines <? S i)%nat then Err LookupError
      else if is_header line then Ok i
      else search_header is_header search_lines (S i) fuel' (tl lines)
  end.
(** beep/structure/biologic.py:50 *)
Definition biologic_header (line : string) : bool := contains "Ecell/V" line && negb (contains "Variables" line).
(** beep/structure/novonix.py:45 *)
Definition novonix_header (line : string) : bool := contains "Cycle Number" line.
(** beep/structure/biologic.py:21-58 _get_file_type: extension, then the search.  The extension
    is what os.path.splitext returns. *)
Definition get_file_type (ext : string) (search_lines : nat) (lines : list string) : result (string * nat * nat) :=
  let! sep := (if String.eqb ext ".csv" then Ok ";"
               else if String.eqb ext ".txt" then Ok (String (ascii_of_nat 9) "")
               else Err TypeError)%string in
  let! h := search_header biologic_header search_lines 1 search_lines lines in
  Ok (sep, h, (h + 1)%nat).
(** beep/structure/novonix.py:35-66 *)
Definition novonix_find_header (lines : list string) : result nat :=
  search_header novonix_header 500 1 500 lines.

(** biologic.py:77-108 reading the table.  [columns] is the header split by the
    separator, [rows] the data lines split likewise; [conv c s] converts an item
    of column [c] (int/float with scale, or the text itself) and may fail. *)
Section Table.
  Context {V : Type} (conv : string -> string -> result V).
  (** for [append_rows], beep/structure/biologic.py:87-88 *)
  Fixpoint append_items (raw : list (string * list V)) (columns : list string) (items : list string)
    : result (list (string * list V)) :=
    match items, columns with
    | [], _ => Ok raw
    | _ :: _, [] => Err IndexError                                    (* columns[ci] *)
    | s :: items', c :: columns' =>
        let! v := conv c s in
        let old := match sget raw c with Some l => l | None => [] end in
        append_items (sset raw c (old ++ [v])) columns' items'
    end.
  (** for [read_table], beep/structure/biologic.py:87-88 *)
  Fixpoint append_rows (raw : list (string * list V)) (columns : list string) (rows : list (list string))
    : result (list (string * list V)) :=
    match rows with
    | [] => Ok raw
    | items :: rest => let! raw' := append_items raw columns items in append_rows raw' columns rest
    end.
  (** beep/structure/biologic.py:87-88: raw[c] = list() for every column *)
  Definition read_table (columns : list string) (rows : list (list string)) : result (list (string * list V)) :=
    append_rows (fold_left (fun d c => sset d c []) columns []) columns rows.
End Table.

(** beep/structure/biologic.py:176-180 channel id: "A1" is channel 11.  Simplification: the
    text after the letter is the decimal number [n] without leading zeros. *)
Fixpoint pow10_above (fuel : nat) (n p : Z) : Z :=
  match fuel with O => p | S k => if (n <? p)%Z then p else pow10_above k n (10 * p)%Z end.
(** beep/structure/biologic.py:146-214 parse_metadata *)
Definition digits_factor (n : Z) : Z := pow10_above (Z.to_nat n) n 10.
(** beep/structure/biologic.py:146-214 parse_metadata *)
Definition channel_id (letter : Z) (n : Z) : Z := (letter * digits_factor n + n)%Z.
