(** Model of the step conversion of beep/protocol/maccor_to_biologic_mb.py:
    splitting, numbering, techniques, filters, mappings, export and cycle
    advancement rules. *)
From Verif Require Import Py Model_Text Model_Units Model_Biologic.

(** An XML element that may be absent, single or repeated (xmltodict).
    (for [many_list], beep/protocol/maccor_to_biologic_mb.py:301-303, 400-406) *)
Inductive many (A : Type) : Type := NoneOf | One (a : A) | Many (l : list A).
Arguments NoneOf {A}. Arguments One {A} a. Arguments Many {A} l.
(** beep/protocol/maccor_to_biologic_mb.py:301-303, 400-406 *)
Definition many_list {A} (m : many A) : list A := match m with NoneOf => [] | One a => [a] | Many l => l end.

(** The parts of a Maccor TestStep the conversion looks at.  Simplification: an
    empty element (Python None) is the empty text; every use of such a field is an
    error in both. (for [step], beep/protocol/maccor_to_biologic_mb.py:243-298) *)
Record end_entry := { e_type : string; e_oper : string; e_value : string; e_step : string }.
(** for [step], beep/protocol/maccor_to_biologic_mb.py:243-298 *)
Record report := { r_type : string; r_value : string }.
(** for [set_control], beep/protocol/maccor_to_biologic_mb.py:243-298 *)
Record step := {
  st_type : string; st_mode : string; st_value : string;
  st_limits : option (list (string * string));
  st_ends : many end_entry; st_reports : many report }.

(** A Biologic sequence: an ordered dictionary of integers and texts.
    (for [seq_dict], beep/protocol/maccor_to_biologic_mb.py:320-397) *)
Inductive fval := FInt (z : Z) | FStr (s : string).
(** for [sset_str], beep/protocol/maccor_to_biologic_mb.py:320-397 *)
Definition seq_dict := list (string * fval).
(** for [limit_of], beep/protocol/maccor_to_biologic_mb.py:363-397 *)
Definition Exception {A} : result A := Err (OtherError "Exception").
(** beep/protocol/maccor_to_biologic_mb.py:30 *)
Definition END_SEQ_NUM : Z := 9999.

(** for [set_limit], beep/protocol/maccor_to_biologic_mb.py:320-397 *)
Definition sset_str (d : seq_dict) (k v : string) : seq_dict := sset d k (FStr v).
(** for [set_limit], beep/protocol/maccor_to_biologic_mb.py:320-397 *)
Definition sset_int (d : seq_dict) (k : string) (v : Z) : seq_dict := sset d k (FInt v).
(** "lim{}_seq".format(n) and the like (for [set_limit], beep/protocol/maccor_to_biologic_mb.py:320-397) *)
Definition key (p : string) (n : Z) (f : string) : string := (p ++ str_int n ++ "_" ++ f)%string.

(** beep/protocol/maccor_to_biologic_mb.py:238-241 operator_map; [operator_map[oper]] on another operator is a KeyError *)
Definition operator_map (oper : string) : result string :=
  if String.eqb oper ">=" then Ok ">"%string else if String.eqb oper "<=" then Ok "<"%string else Err KeyError.

(** beep/protocol/maccor_to_biologic_mb.py:350-356 *)
Definition goto_seq (nums : list (Z * list Z)) (step_num seq_num end_step_num goto : Z) : result Z :=
  if Z.eqb goto (step_num + 1) then Ok (seq_num + 1)%Z
  else if Z.eqb goto end_step_num then Ok END_SEQ_NUM
  else match d_get Z.eqb nums goto with
       | Some (n :: _) => Ok n
       | Some [] => Err IndexError
       | None => Err KeyError
       end.
(** beep/protocol/maccor_to_biologic_mb.py:363-397: type, comparison, value and unit of a limit *)
Definition limit_of (e : end_entry) : result (string * string * (string * string)) :=
  if String.eqb (e_type e) "StepTime" then
    if negb (String.eqb (e_oper e) "=") then Exception
    else let! v := convert_time (e_value e) in Ok ("Time"%string, ">"%string, v)
  else if String.eqb (e_type e) "Voltage" then
    let! c := operator_map (e_oper e) in let! v := convert_volts (e_value e) in Ok ("Ecell"%string, c, v)
  else if String.eqb (e_type e) "Current" then
    let! c := operator_map (e_oper e) in let! v := convert_amps (e_value e) in Ok ("|I|"%string, c, v)
  else Exception.
(** beep/protocol/maccor_to_biologic_mb.py:320-397, the body of the loop over the end entries *)
Definition set_limit (nums : list (Z * list Z)) (step_num seq_num lb ub end_step_num lim_num : Z)
    (d : seq_dict) (e : end_entry) : result seq_dict :=
  let! goto := py_int (e_step e) in
  if (goto <? lb)%Z || ((ub <? goto)%Z && negb (Z.eqb goto end_step_num)) then Exception
  else
    let! s := goto_seq nums step_num seq_num end_step_num goto in
    let d := sset_int d (key "lim" lim_num "seq") s in
    let d := if negb (Z.eqb goto (step_num + 1)) then sset_str d (key "lim" lim_num "action") "Goto sequence" else d in
    let! l := limit_of e in
    let '(ty, comp, (v, u)) := l in
    let d := sset_str d (key "lim" lim_num "type") ty in
    let d := sset_str d (key "lim" lim_num "value_unit") u in
    let d := sset_str d (key "lim" lim_num "value") v in
    Ok (sset_str d (key "lim" lim_num "comp") comp).
(** beep/protocol/maccor_to_biologic_mb.py:213-451 _convert_step_parts *)
Fixpoint set_limits nums (step_num seq_num lb ub end_step_num lim_num : Z) (d : seq_dict) (es : list end_entry) : result seq_dict :=
  match es with
  | [] => Ok d
  | e :: r => let! d := set_limit nums step_num seq_num lb ub end_step_num lim_num d e in
              set_limits nums step_num seq_num lb ub end_step_num (lim_num + 1) d r
  end.
(** beep/protocol/maccor_to_biologic_mb.py:420-448 *)
Definition set_report (rec_num : Z) (d : seq_dict) (r : report) : result seq_dict :=
  let! p := (if String.eqb (r_type r) "StepTime" then let! v := convert_time (r_value r) in Ok ("Time"%string, v)
             else if String.eqb (r_type r) "Voltage" then let! v := convert_volts (r_value r) in Ok ("Ecell"%string, v)
             else if String.eqb (r_type r) "Current" then let! v := convert_amps (r_value r) in Ok ("I"%string, v)
             else Exception) in
  let '(ty, (v, u)) := p in
  let d := sset_str d (key "rec" rec_num "type") ty in
  let d := sset_str d (key "rec" rec_num "value") v in
  Ok (sset_str d (key "rec" rec_num "value_unit") u).
(** beep/protocol/maccor_to_biologic_mb.py:213-451 _convert_step_parts *)
Fixpoint set_reports (rec_num : Z) (d : seq_dict) (rs : list report) : result seq_dict :=
  match rs with
  | [] => Ok d
  | r :: rest => let! d := set_report rec_num d r in set_reports (rec_num + 1) d rest
  end.
(** beep/protocol/maccor_to_biologic_mb.py:243-298: control type, value and direction *)
Definition set_control (d : seq_dict) (st : step) : result seq_dict :=
  let direction := if String.eqb (st_type st) "Charge" then "Charge"%string else "Discharge"%string in
  if String.eqb (st_type st) "Rest" then
    let d := sset_str d "ctrl_type" "Rest" in
    let d := sset_str d "Apply I/C" "I" in
    let d := sset_str d "N" "1.00" in
    Ok (sset_str d "charge/discharge" "Charge")
  else if negb (str_in (st_type st) ["Charge"; "Dischrge"]%string) then Exception
  else if String.eqb (st_mode st) "Current" then
    let! vu := convert_amps (st_value st) in
    let d := sset_str d "ctrl1_val" (fst vu) in
    let d := sset_str d "ctrl1_val_unit" (snd vu) in
    let d := sset_str d "ctrl_type" "CC" in
    let d := sset_str d "Apply I/C" "I" in
    let d := sset_str d "ctrl1_val_vs" "<None>" in
    let d := sset_str d "N" "15.00" in
    Ok (sset_str d "charge/discharge" direction)
  else if String.eqb (st_mode st) "Voltage" then
    let! vu := convert_volts (st_value st) in
    let d := sset_str d "ctrl1_val" (fst vu) in
    let d := sset_str d "ctrl1_val_unit" (snd vu) in
    let d := sset_str d "ctrl_type" "CV" in
    let d := sset_str d "Apply I/C" "I" in
    let d := sset_str d "ctrl1_val_vs" "Ref" in
    let d := sset_str d "N" "15.00" in
    Ok (sset_str d "charge/discharge" direction)
  else Exception.
(** beep/protocol/maccor_to_biologic_mb.py:226-450, one part of a step *)
Definition convert_part (blank : seq_dict) (nums : list (Z * list Z)) (step_num lb ub end_step_num : Z)
    (seq_num : Z) (part : step) : result seq_dict :=
  let d := sset_int blank "Ns" seq_num in
  let d := sset_int d "lim1_seq" (seq_num + 1) in
  let d := sset_int d "lim2_seq" (seq_num + 1) in
  let d := sset_int d "lim3_seq" (seq_num + 1) in
  let! d := set_control d part in
  let ends := many_list (st_ends part) in
  if (3 <? length ends)%nat then Exception else
  let d := sset_int d "lim_nb" (Z.of_nat (length ends)) in
  let! d := set_limits nums step_num seq_num lb ub end_step_num 1 d ends in
  let reports := many_list (st_reports part) in
  if (3 <? length reports)%nat then Exception else
  let d := sset_int d "rec_nb" (Z.of_nat (length reports)) in
  set_reports 1 d reports.
(** beep/protocol/maccor_to_biologic_mb.py:213-451 _convert_step_parts; the two assertions hold by construction of [nums] *)
Fixpoint convert_parts (blank : seq_dict) nums (step_num lb ub end_step_num : Z) (l : list (Z * step)) : result (list seq_dict) :=
  match l with
  | [] => Ok []
  | (seq_num, part) :: r =>
      let! d := convert_part blank nums step_num lb ub end_step_num seq_num part in
      let! ds := convert_parts blank nums step_num lb ub end_step_num r in
      Ok (d :: ds)
  end.

(** beep/protocol/protocol_schemas/biologic_mb_schema.yaml, blank_seq *)
Definition blank_seq : seq_dict :=
  [("Ns", FStr "0");
   ("ctrl_type", FStr "");
   ("Apply I/C", FStr "");
   ("ctrl1_val", FStr "");
   ("ctrl1_val_unit", FStr "");
   ("ctrl1_val_vs", FStr "");
   ("ctrl2_val", FStr "");
   ("ctrl2_val_unit", FStr "");
   ("ctrl2_val_vs", FStr "");
   ("ctrl3_val", FStr "");
   ("ctrl3_val_unit", FStr "");
   ("ctrl3_val_vs", FStr "");
   ("N", FStr "");
   ("charge/discharge", FStr "");
   ("ctrl_seq", FStr "0");
   ("ctrl_repeat", FStr "0");
   ("ctrl_trigger", FStr "Falling Edge");
   ("ctrl_TO_t", FStr "0.000");
   ("ctrl_TO_t_unit", FStr "d");
   ("ctrl_Nd", FStr "6");
   ("ctrl_Na", FStr "1");
   ("ctrl_corr", FStr "1");
   ("lim_nb", FStr "0");
   ("lim1_type", FStr "Time");
   ("lim1_comp", FStr "<");
   ("lim1_Q", FStr "Q limit");
   ("lim1_value", FStr "0.000");
   ("lim1_value_unit", FStr "s");
   ("lim1_action", FStr "Next sequence");
   ("lim1_seq", FStr "0");
   ("lim2_type", FStr "Time");
   ("lim2_comp", FStr "<");
   ("lim2_Q", FStr "Q limit");
   ("lim2_value", FStr "0.000");
   ("lim2_value_unit", FStr "s");
   ("lim2_action", FStr "Next sequence");
   ("lim2_seq", FStr "0");
   ("lim3_type", FStr "Time");
   ("lim3_comp", FStr "<");
   ("lim3_Q", FStr "Q limit");
   ("lim3_value", FStr "0.000");
   ("lim3_value_unit", FStr "s");
   ("lim3_action", FStr "Next sequence");
   ("lim3_seq", FStr "0");
   ("rec_nb", FStr "0");
   ("rec1_type", FStr "Time");
   ("rec1_value", FStr "10.000");
   ("rec1_value_unit", FStr "s");
   ("rec2_type", FStr "Time");
   ("rec2_value", FStr "10.000");
   ("rec2_value_unit", FStr "s");
   ("rec3_type", FStr "Time");
   ("rec3_value", FStr "10.000");
   ("rec3_value_unit", FStr "s");
   ("E range min (V)", FStr "0.000");
   ("E range max (V)", FStr "10.000");
   ("I Range", FStr "1 mA");
   ("I Range min", FStr "Unset");
   ("I Range max", FStr "Unset");
   ("I Range init", FStr "Unset");
   ("auto rest", FStr "0");
   ("Bandwidth", FStr "4")]%string.

(** beep/protocol/maccor_to_biologic_mb.py:453-466 *)
Definition create_loop_seq (blank : seq_dict) (seq_num to num_loops : Z) : seq_dict :=
  let d := sset_int blank "Ns" seq_num in
  let d := sset_str d "ctrl_type" "Loop" in
  let d := sset_int d "ctrl_repeat" num_loops in
  let d := sset_int d "ctrl_seq" to in
  let d := sset_int d "lim1_seq" (seq_num + 1) in
  let d := sset_int d "lim2_seq" (seq_num + 1) in
  let d := sset_int d "lim3_seq" (seq_num + 1) in
  let d := sset_str d "Apply I/C" "I" in
  sset_str d "ctrl1_val" "100.000".

(** beep/protocol/maccor_to_biologic_mb.py:874-931 _split_step.  894 reads the misspelled path "EndsEndEntries", which no
    step has, so the first part keeps none of the step's own end entries.
    (The inserted StepNote is not modelled.) *)
Definition split_step (st : step) (step_num : Z) : result (list step) :=
  match st_limits st with
  | None => Ok [st]
  | Some limits =>
      if String.eqb (st_mode st) "Current" || String.eqb (st_mode st) "Voltage" then
        let acceptable := if String.eqb (st_mode st) "Current" then "Voltage"%string else "Current"%string in
        match sget limits acceptable with
        | None => Exception
        | Some lim =>
            let! oper := (if String.eqb (st_type st) "Charge" then Ok ">="%string
                          else if String.eqb (st_type st) "Dischrge" then Ok "<="%string
                          else Exception) in
            let new_end := {| e_type := acceptable; e_oper := oper; e_value := lim; e_step := zfill 3 (str_int (step_num + 1)) |} in
            Ok [ {| st_type := st_type st; st_mode := st_mode st; st_value := st_value st; st_limits := st_limits st;
                    st_ends := One new_end; st_reports := st_reports st |};
                 {| st_type := st_type st; st_mode := acceptable; st_value := lim; st_limits := st_limits st;
                    st_ends := st_ends st; st_reports := st_reports st |} ]
        end
      else Exception
  end.

(** beep/protocol/maccor_to_biologic_mb.py:956-957 *)
Definition is_open (t : string) : bool := str_in t ["Do 1"; "Do 2"]%string.
(** for [parts_of], beep/protocol/maccor_to_biologic_mb.py:964-971 *)
Definition is_close (t : string) : bool := str_in t ["Loop 1"; "Loop 2"]%string.
(** for [parts_of], beep/protocol/maccor_to_biologic_mb.py:964-971 *)
Definition is_adv (t : string) : bool := String.eqb t "AdvCycle".
(** beep/protocol/maccor_to_biologic_mb.py:964-971 *)
Definition parts_of (st : step) (step_num : Z) : result (list step) :=
  if is_open (st_type st) || is_adv (st_type st) then Ok []
  else if is_close (st_type st) then Ok [st]
  else split_step st step_num.
(** beep/protocol/maccor_to_biologic_mb.py:959-988: the numbering pass.  seq_nums_by_step_num, and each step with its parts
    (step_nums_by_seq_num is not used by anything and left out). *)
Fixpoint number_steps (steps : list step) (step_num seq_num : Z) : result (list (Z * list Z) * list (step * list step)) :=
  match steps with
  | [] => Ok ([], [])
  | st :: rest =>
      let! parts := parts_of st step_num in
      let nums := match parts with
                  | [] => [seq_num]
                  | _ => map (fun k => (seq_num + Z.of_nat k)%Z) (seq 0 (length parts))
                  end in
      let! p := number_steps rest (step_num + 1) (seq_num + Z.of_nat (length parts)) in
      Ok ((step_num, nums) :: fst p, (st, parts) :: snd p)
  end.
(** get(step, "Ends.EndEntry.Value") as an integer: a list of entries has no Value
    (for [convert_pass], beep/protocol/maccor_to_biologic_mb.py:1000-1042) *)
Definition loop_count (st : step) : result Z :=
  match st_ends st with One e => py_int (e_value e) | _ => Err TypeError end.
(** beep/protocol/maccor_to_biologic_mb.py:1000-1042: the conversion pass.  [open] is prev_loop_open_step_num, -1 for none. *)
Fixpoint convert_pass (blank : seq_dict) (nums : list (Z * list Z)) (ub end_step_num : Z)
    (l : list (step * list step)) (step_num lb open : Z) : result (list seq_dict) :=
  match l with
  | [] => Ok []
  | (st, parts) :: rest =>
      if is_open (st_type st) then convert_pass blank nums ub end_step_num rest (step_num + 1) (step_num + 1) step_num
      else if is_adv (st_type st) then convert_pass blank nums ub end_step_num rest (step_num + 1) lb open
      else if is_close (st_type st) then
        if Z.eqb open (-1) then Exception else
        match d_get Z.eqb nums step_num, d_get Z.eqb nums open with
        | Some [seq_num], Some (to :: _) =>
            let! n := loop_count st in
            let! more := convert_pass blank nums ub end_step_num rest (step_num + 1) (step_num + 1) (-1) in
            Ok (create_loop_seq blank seq_num to (Z.max (n - 1) 0) :: more)
        | Some _, Some _ => Err AssertionError
        | _, _ => Err KeyError
        end
      else
        match d_get Z.eqb nums step_num with
        | None => Err AssertionError
        | Some ns =>
            if negb (Nat.eqb (length parts) (length ns)) then Err AssertionError else
            let! ds := convert_parts blank nums step_num lb ub end_step_num (combine ns parts) in
            let! more := convert_pass blank nums ub end_step_num rest (step_num + 1) lb open in
            Ok (ds ++ more)
        end
  end.
(** beep/protocol/maccor_to_biologic_mb.py:951-1044 _convert_steps_to_seqs *)
Definition convert_steps_to_seqs (blank : seq_dict) (steps : list step) (offset end_step_num : Z)
    : result (list seq_dict * list (Z * list Z)) :=
  let! p := number_steps steps (offset + 1) 0 in
  let! seqs := convert_pass blank (fst p) (offset + Z.of_nat (length steps) + 1) end_step_num (snd p) (offset + 1) offset (-1) in
  Ok (seqs, fst p).

(** beep/protocol/maccor_to_biologic_mb.py:1283-1298 *)
Record partition := { tp_num : Z; tp_steps : list step; tp_offset : Z; tp_loops : bool; tp_count : Z }.
(** beep/protocol/maccor_to_biologic_mb.py:605-629: scanning for looping techniques.  A range carries its loop count when
    its start is a key of tech_loops_by_start_step_num. *)
Record scan := { sc_open : option nat; sc_start : nat; sc_in : bool; sc_ranges : list (nat * nat * option Z) }.
(** for [partition_steps], beep/protocol/maccor_to_biologic_mb.py:600-668 *)
Fixpoint scan_steps (s : scan) (i : nat) (steps : list step) : result scan :=
  match steps with
  | [] => Ok s
  | st :: rest =>
      if String.eqb (st_type st) "Do 1" then
        scan_steps {| sc_open := Some i; sc_start := sc_start s; sc_in := sc_in s; sc_ranges := sc_ranges s |} (S i) rest
      else if String.eqb (st_type st) "Do 2" then
        match sc_open s with
        | None => Err AssertionError
        | Some _ => scan_steps {| sc_open := sc_open s; sc_start := sc_start s; sc_in := true; sc_ranges := sc_ranges s |} (S i) rest
        end
      else if String.eqb (st_type st) "Loop 1" && sc_in s then
        match sc_open s with
        | None => Err AssertionError  (* not reachable: in_loop_tech needs an open Do 1 *)
        | Some o =>
            let before := if Nat.eqb (sc_start s) o then [] else [(sc_start s, o, None)] in
            let! n := loop_count st in
            scan_steps {| sc_open := None; sc_start := S i; sc_in := false;
                          sc_ranges := sc_ranges s ++ before ++ [(o, S i, Some n)] |} (S i) rest
        end
      else scan_steps s (S i) rest
  end.
(** for [build_partitions], beep/protocol/maccor_to_biologic_mb.py:640-666 *)
Definition slice {A} (l : list A) (a b : nat) : list A := firstn (b - a) (skipn a l).
(** beep/protocol/maccor_to_biologic_mb.py:640-666 *)
Fixpoint build_partitions (steps : list step) (prev_end : nat) (technique_num : Z) (ranges : list (nat * nat * option Z)) : result (list partition) :=
  match ranges with
  | [] => Ok []
  | (a, b, n) :: rest =>
      if negb (Nat.eqb prev_end a) || negb (a <? b)%nat then Err AssertionError else
      let tp := match n with
                | Some k => {| tp_num := technique_num; tp_steps := slice steps (a + 1) (b - 1);
                               tp_offset := Z.of_nat a + 1; tp_loops := true; tp_count := k |}
                | None => {| tp_num := technique_num; tp_steps := slice steps a b;
                             tp_offset := Z.of_nat a; tp_loops := false; tp_count := 0 |}
                end in
      let! more := build_partitions steps b (technique_num + (if tp_loops tp then 2 else 1)) rest in
      Ok (tp :: more)
  end.
(** beep/protocol/maccor_to_biologic_mb.py:600-668 _partition_steps_into_techniques *)
Definition partition_steps (steps : list step) : result (list partition) :=
  let! s := scan_steps {| sc_open := None; sc_start := 0; sc_in := false; sc_ranges := [] |} 0 steps in
  let ranges := sc_ranges s ++ (if (sc_start s <? length steps)%nat then [(sc_start s, length steps, None)] else []) in
  match ranges, last_error ranges with
  | (a, _, _) :: _, Some (_, b, _) =>
      if negb (Nat.eqb a 0) || negb (Nat.eqb b (length steps)) then Err AssertionError
      else build_partitions steps 0 1 ranges
  | _, _ => Err IndexError
  end.

(** beep/protocol/maccor_to_biologic_mb.py:58-61 *)
Record config := { max_v : option Q; min_v : option Q; max_i : option Q; min_i : option Q }.
(** for [end_entry_filter], beep/protocol/maccor_to_biologic_mb.py:682-704 *)
Definition with_ends (st : step) (es : many end_entry) : step :=
  {| st_type := st_type st; st_mode := st_mode st; st_value := st_value st; st_limits := st_limits st;
     st_ends := es; st_reports := st_reports st |}.
(** the loop of 689-692 (for [end_entry_filter], beep/protocol/maccor_to_biologic_mb.py:682-704) *)
Fixpoint keep (pred : end_entry -> result bool) (l : list end_entry) : result (list end_entry) :=
  match l with
  | [] => Ok []
  | e :: r => let! b := pred e in let! k := keep pred r in Ok (if b then e :: k else k)
  end.
(** beep/protocol/maccor_to_biologic_mb.py:682-704.  688 leaves a single entry as a dictionary: the loop then runs over its
    keys, for which each of the four predicates below answers True, so that the
    step is returned unchanged. *)
Definition end_entry_filter (pred : end_entry -> result bool) (st : step) : result step :=
  match st_ends st with
  | NoneOf => Ok st
  | One _ => Ok st
  | Many l =>
      let! k := keep pred l in
      if Nat.eqb (length k) (length l) then Ok st
      else Ok (with_ends st (match k with [] => NoneOf | _ => Many k end))
  end.
(** beep/protocol/maccor_to_biologic_mb.py:706-776: the four predicates, True to keep *)
Definition limit_pred (limit : option Q) (ty oper : string) (beyond : Q -> Q -> bool) (e : end_entry) : result bool :=
  match limit with
  | None => Ok true
  | Some m =>
      if negb (String.eqb (e_type e) ty) then Ok true
      else let! v := py_float (e_value e) in Ok (negb (String.eqb (e_oper e) oper && beyond v m))
  end.
(** beep/protocol/maccor_to_biologic_mb.py:706-776 *)
Definition max_voltage_pred (c : config) := limit_pred (max_v c) "Voltage" ">=" (fun v m => Qle_bool m v).
(** beep/protocol/maccor_to_biologic_mb.py:706-776 *)
Definition min_voltage_pred (c : config) := limit_pred (min_v c) "Voltage" "<=" (fun v m => Qle_bool v m).
(** beep/protocol/maccor_to_biologic_mb.py:706-776 *)
Definition max_current_pred (c : config) := limit_pred (max_i c) "Current" ">=" (fun v m => Qlt_bool m v).
(** beep/protocol/maccor_to_biologic_mb.py:706-776 *)
Definition min_current_pred (c : config) := limit_pred (min_i c) "Current" "<=" (fun v m => Qlt_bool v m).
(** beep/protocol/maccor_to_biologic_mb.py:790-791 *)
Fixpoint run_step_mappers (fs : list (step -> Z -> result step)) (st : step) (step_num : Z) : result step :=
  match fs with [] => Ok st | f :: r => let! st := f st step_num in run_step_mappers r st step_num end.
(** beep/protocol/maccor_to_biologic_mb.py:778-795 _apply_step_mappings *)
Fixpoint apply_step_mappings (c : config) (mappers : list (step -> Z -> result step)) (step_num : Z) (steps : list step) : result (list step) :=
  match steps with
  | [] => Ok []
  | st :: rest =>
      let! st := end_entry_filter (max_current_pred c) st in
      let! st := end_entry_filter (min_current_pred c) st in
      let! st := end_entry_filter (max_voltage_pred c) st in
      let! st := end_entry_filter (min_voltage_pred c) st in
      let! st := run_step_mappers mappers st step_num in
      let! more := apply_step_mappings c mappers (step_num + 1) rest in
      Ok (st :: more)
  end.

(** beep/protocol/maccor_to_biologic_mb.py:797-827 *)
Definition range_mapper (limit : option Q) (k : string) (d : seq_dict) : seq_dict :=
  match limit with None => d | Some m => sset_str d k (fmt3 m) end.
(** beep/protocol/maccor_to_biologic_mb.py:797-827 *)
Definition max_current_mapper (c : config) := range_mapper (max_i c) "I Range Max".
(** beep/protocol/maccor_to_biologic_mb.py:797-827 *)
Definition min_current_mapper (c : config) := range_mapper (min_i c) "I Range Min".
(** beep/protocol/maccor_to_biologic_mb.py:797-827 *)
Definition max_voltage_mapper (c : config) := range_mapper (max_v c) "E Range Max (V)".
(** beep/protocol/maccor_to_biologic_mb.py:797-827 *)
Definition min_voltage_mapper (c : config) := range_mapper (min_v c) "E Range Min (V)".
(** beep/protocol/maccor_to_biologic_mb.py:844-859 _apply_seq_mappings, one sequence: every mapping is applied to the
    original [seq]. *)
Definition map_seq (c : config) (mappers : list (seq_dict -> Z -> seq_dict)) (d : seq_dict) (i : Z) : seq_dict :=
  let mapped := d in
  let mapped := max_current_mapper c d in
  let mapped := min_current_mapper c d in
  let mapped := max_voltage_mapper c d in
  let mapped := min_voltage_mapper c d in
  fold_left (fun mapped f => f d i) mappers mapped.
(** beep/protocol/maccor_to_biologic_mb.py:844-859 _apply_seq_mappings *)
Fixpoint apply_seq_mappings (c : config) (mappers : list (seq_dict -> Z -> seq_dict)) (i : Z) (seqs : list seq_dict) : list seq_dict :=
  match seqs with [] => [] | d :: r => map_seq c mappers d i :: apply_seq_mappings c mappers (i + 1) r end.

(** s.ljust(w, " ") (for [ljust], beep/protocol/maccor_to_biologic_mb.py:478-494) *)
Fixpoint spaces (n : nat) : string := match n with O => ""%string | S k => String " " (spaces k) end.
(** for [field_cells], beep/protocol/maccor_to_biologic_mb.py:478-494 *)
Definition ljust (w : nat) (s : string) : string := (s ++ spaces (w - String.length s))%string.
(** str(seq[key]) (for [field_cells], beep/protocol/maccor_to_biologic_mb.py:478-494) *)
Definition fval_text (v : fval) : string := match v with FInt z => str_int z | FStr s => s end.
(** for [seqs_to_str], beep/protocol/maccor_to_biologic_mb.py:478-494 _seqs_to_str *)
Definition crlf : string := String (ascii_of_nat 13) (String (ascii_of_nat 10) "").
(** beep/protocol/maccor_to_biologic_mb.py:478-494 _seqs_to_str *)
Fixpoint field_cells (w : nat) (k : string) (seqs : list seq_dict) : result string :=
  match seqs with
  | [] => Ok ""%string
  | d :: r =>
      match sget d k with
      | None => Exception
      | Some v => if (w <? String.length (fval_text v))%nat then Exception
                  else let! more := field_cells w k r in Ok (ljust w (fval_text v) ++ more)%string
      end
  end.
(** beep/protocol/maccor_to_biologic_mb.py:478-494 _seqs_to_str *)
Fixpoint seqs_to_str (w : nat) (keys : list string) (seqs : list seq_dict) : result string :=
  match keys with
  | [] => Ok ""%string
  | k :: rest =>
      if (w <? String.length k)%nat then Exception else
      let! cells := field_cells w k seqs in
      let! more := seqs_to_str w rest seqs in
      Ok (ljust w k ++ cells ++ crlf ++ more)%string
  end.
(** beep/protocol/maccor_to_biologic_mb.py:496-508 _technique_to_str; col_width is always 20 *)
Definition technique_to_str (keys : list string) (num : Z) (seqs : list seq_dict) (does_loop : bool) (num_loops : Z) : result string :=
  let! body := seqs_to_str 20 keys seqs in
  let head := (crlf ++ "Technique : " ++ str_int num ++ crlf ++ "Modulo Bat" ++ crlf ++ body)%string in
  if does_loop then
    Ok (head ++ crlf ++ "Technique : " ++ str_int (num + 1) ++ crlf ++ "Loop" ++ crlf
        ++ ljust 20 "goto Ne" ++ ljust 20 (str_int num) ++ crlf
        ++ ljust 20 "nt times" ++ ljust 20 (str_int num_loops) ++ crlf)%string
  else Ok head.

(** beep/protocol/maccor_to_biologic_mb.py:510-531 _diagnostic_file_str_from_technique_partitions_post_conversion: the number
    of techniques announced in the header, and the techniques one after the other.
    The rest of the header (fixed text and the safety limits) is not modelled. *)
Definition num_techniques (techs : list (partition * list seq_dict)) : result Z :=
  match last_error techs with
  | None => Err AssertionError
  | Some (tp, _) => Ok (if tp_loops tp then tp_num tp + 1 else tp_num tp)%Z
  end.
(** beep/protocol/maccor_to_biologic_mb.py:510-531 *)
Fixpoint techniques_to_str (keys : list string) (techs : list (partition * list seq_dict)) : result string :=
  match techs with
  | [] => Ok ""%string
  | (tp, seqs) :: rest =>
      let! s := technique_to_str keys (tp_num tp) seqs (tp_loops tp) (tp_count tp) in
      let! more := techniques_to_str keys rest in
      Ok (s ++ more)%string
  end.

(** beep/protocol/maccor_to_biologic_mb.py:1056-1195 _create_cycle_advancement_rules. *)
Record car := { ca_adv : Z; ca_start : Z; ca_trans : transitions; ca_open : option nat; ca_prev : Z }.
(** beep/protocol/maccor_to_biologic_mb.py:1129-1149: tracing the loop body from its first step; [js] is range(prev_loop_open + 1, i + 1) *)
Fixpoint trace_loop (steps : list step) (offset step_num prev adv : Z) (trans : transitions) (js : list nat) : result transitions :=
  match js with
  | [] => Ok trans
  | j :: rest =>
      let looped := (Z.of_nat j + offset)%Z in
      if Z.eqb looped step_num then Exception
      else if Z.eqb looped prev then Exception
      else match nth_error steps j with
           | None => Err IndexError
           | Some st =>
               if String.eqb (st_type st) "Adv Cycle" then trace_loop steps offset step_num prev (adv + 1) trans rest
               else Ok (d_set pair_eqb trans (prev, looped) adv)
           end
  end.
(** beep/protocol/maccor_to_biologic_mb.py:1094-1162, the body of the loop over the steps; [i] is the index of [st] *)
Definition rules_step (steps : list step) (offset : Z) (does_loop : bool) (s : car) (i : nat) (st : step) : result car :=
  let open_ok := if does_loop then "Do 2"%string else "Do 1"%string in
  let open_bad := if does_loop then "Do 1"%string else "Do 2"%string in
  let close_ok := if does_loop then "Loop 2"%string else "Loop 1"%string in
  let close_bad := if does_loop then "Loop 1"%string else "Loop 2"%string in
  let step_num := (Z.of_nat i + offset + 1)%Z in
  if str_in (st_type st) [close_bad; open_bad] then Exception
  else if String.eqb (st_type st) "AdvCycle" then
    Ok {| ca_adv := ca_adv s + 1; ca_start := ca_start s; ca_trans := ca_trans s; ca_open := ca_open s; ca_prev := ca_prev s |}
  else if String.eqb (st_type st) open_ok then
    match ca_open s with
    | Some _ => Exception
    | None => Ok {| ca_adv := ca_adv s; ca_start := ca_start s; ca_trans := ca_trans s; ca_open := Some i; ca_prev := ca_prev s |}
    end
  else if String.eqb (st_type st) close_ok then
    match ca_open s with
    | None => Exception
    | Some o =>
        let! trans := (if (0 <? ca_adv s)%Z then
                         if Z.eqb (ca_prev s) (-1) then Exception
                         else trace_loop steps offset step_num (ca_prev s) (ca_adv s) (ca_trans s) (seq (o + 1) (i - o))
                       else Ok (ca_trans s)) in
        Ok {| ca_adv := ca_adv s; ca_start := ca_start s; ca_trans := trans; ca_open := None; ca_prev := ca_prev s |}
    end
  else
    match st_reports st with
    | NoneOf => Err AssertionError
    | _ =>
        Ok {| ca_adv := 0;
              ca_start := if Z.eqb (ca_prev s) (-1) then (ca_start s + ca_adv s)%Z else ca_start s;
              ca_trans := if Z.eqb (ca_prev s) (-1) then ca_trans s
                          else if (0 <? ca_adv s)%Z then d_set pair_eqb (ca_trans s) (ca_prev s, step_num) (ca_adv s)
                          else ca_trans s;
              ca_open := ca_open s; ca_prev := step_num |}
    end.
(** beep/protocol/maccor_to_biologic_mb.py:1056-1195 _create_cycle_advancement_rules *)
Fixpoint rules_steps (steps : list step) (offset : Z) (does_loop : bool) (s : car) (i : nat) (rest : list step) : result car :=
  match rest with
  | [] => Ok s
  | st :: r => let! s := rules_step steps offset does_loop s i st in rules_steps steps offset does_loop s (S i) r
  end.
(** beep/protocol/maccor_to_biologic_mb.py:1174-1183: from step numbers to sequence numbers *)
Fixpoint seq_transitions (nums : list (Z * list Z)) (acc : transitions) (l : transitions) : result transitions :=
  match l with
  | [] => Ok acc
  | ((s_, t_), n) :: rest =>
      match d_get Z.eqb nums s_, d_get Z.eqb nums t_ with
      | Some ss, Some ts =>
          match last_error ss, ts with
          | Some s, t :: _ => seq_transitions nums (d_set pair_eqb acc (s, t) n) rest
          | _, _ => Err IndexError
          end
      | _, _ => Err KeyError
      end
  end.
(** one technique with its seq_nums_by_step_num
    (for [create_cycle_advancement_rules], beep/protocol/maccor_to_biologic_mb.py:1222-1283 convert) *)
Fixpoint advancement_rules (adv : Z) (techs : list (partition * list (Z * list Z))) : result (list rules) :=
  match techs with
  | [] => Ok []
  | (tp, nums) :: rest =>
      let! s := rules_steps (tp_steps tp) (tp_offset tp) (tp_loops tp)
                  {| ca_adv := 0; ca_start := adv; ca_trans := []; ca_open := None; ca_prev := -1 |} 0 (tp_steps tp) in
      let! tr := seq_transitions nums [] (ca_trans s) in
      let! more := advancement_rules (ca_adv s) rest in
      Ok ({| tech_num := tp_num tp; tech_does_loop := tp_loops tp; adv_cycle_on_start := ca_start s;
             adv_cycle_on_tech_loop := ca_adv s; adv_cycle_seq_transitions := tr;
             debug_adv_cycle_on_step_transitions := ca_trans s |} :: more)
  end.
(** for [convert], beep/protocol/maccor_to_biologic_mb.py:1222-1283 convert *)
Definition create_cycle_advancement_rules := advancement_rules 0.

(** beep/protocol/maccor_to_biologic_mb.py:1230-1259 of convert: filters, removal of the End step, techniques, sequences.
    Reading the XML and writing the files are not modelled. *)
Fixpoint convert_techniques (blank : seq_dict) (c : config) (mappers : list (Z -> seq_dict -> Z -> seq_dict)) (end_step_num : Z)
    (tps : list partition) : result (list (partition * list seq_dict * list (Z * list Z))) :=
  match tps with
  | [] => Ok []
  | tp :: rest =>
      let! p := convert_steps_to_seqs blank (tp_steps tp) (tp_offset tp) end_step_num in
      let seqs := apply_seq_mappings c (map (fun f => f (tp_num tp)) mappers) 0 (fst p) in
      let! more := convert_techniques blank c mappers end_step_num rest in
      Ok ((tp, seqs, snd p) :: more)
  end.
(** beep/protocol/maccor_to_biologic_mb.py:1222-1283 convert *)
Definition convert (blank : seq_dict) (c : config) (step_mappers : list (step -> Z -> result step))
    (seq_mappers : list (Z -> seq_dict -> Z -> seq_dict)) (steps : list step)
    : result (list (partition * list seq_dict * list (Z * list Z)) * list rules) :=
  let! steps := apply_step_mappings c step_mappers 1 steps in
  match last_error steps with
  | None => Err AssertionError
  | Some l =>
      if negb (String.eqb (st_type l) "End") then Err AssertionError else
      let! tps := partition_steps (firstn (length steps - 1) steps) in
      let! techs := convert_techniques blank c seq_mappers (Z.of_nat (length steps)) tps in
      let! rs := create_cycle_advancement_rules (map (fun t => (fst (fst t), snd t)) techs) in
      Ok (techs, rs)
  end.
