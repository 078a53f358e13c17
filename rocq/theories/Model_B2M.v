(** Model of beep/protocol/biologic_mb_to_maccor.py: conversion of the sequences of
    a Biologic Modulo Bat technique to the steps of a Maccor procedure. *)
From Verif Require Import Py Model_Text Model_Units.

(** A sequence as Settings.mps_text_to_schedule_dict gives it: texts by key.
    (for [fld], beep/protocol/biologic_mb_to_maccor.py:241-265) *)
Definition bseq := list (string * string).
(** for [int_fld], beep/protocol/biologic_mb_to_maccor.py:241-265 *)
Definition fld (d : bseq) (k : string) : result string := match sget d k with Some v => Ok v | None => Err KeyError end.
(** for [create_loop_step], beep/protocol/biologic_mb_to_maccor.py:241-265 *)
Definition int_fld (d : bseq) (k : string) : result Z := let! s := fld d k in py_int s.
(** for [b_convert_time], beep/protocol/biologic_mb_to_maccor.py:152-172 *)
Definition B2M_Exception {A} : result A := Err (OtherError "Exception").
(** "lim{}_type".format(n) and the like (for [create_end], beep/protocol/biologic_mb_to_maccor.py:372-453) *)
Definition nth_key (p : string) (n : nat) (f : string) : string := (p ++ str_int (Z.of_nat n) ++ f)%string.

(** beep/protocol/biologic_mb_to_maccor.py:114-132 _get_seqs: [techniques] maps technique numbers to type and steps in
    order; a trailing sequence with an empty number is dropped. *)
Definition get_seqs (techniques : list (string * (string * list bseq))) : result (list bseq) :=
  match techniques with
  | [_] =>
      match sget techniques "1" with
      | None => Err KeyError
      | Some (ty, seqs) =>
          if negb (String.eqb ty "Modulo Bat") then Err AssertionError else
          match last_error seqs with
          | None => Ok seqs
          | Some l => let! ns := fld l "Ns" in
                      Ok (if String.eqb ns "" then firstn (length seqs - 1) seqs else seqs)
          end
      end
  | _ => Err AssertionError
  end.

(** beep/protocol/biologic_mb_to_maccor.py:134-136 "{0:0=3d}".format(n) for n >= 0 *)
Definition stringify_step_num (n : Z) : string := zfill 3 (str_int n).

(** "{:.2f}".format(x) (for [hundredths_text], beep/protocol/biologic_mb_to_maccor.py:152-172) *)
Definition pad2 (ds : list nat) : list nat := zeros (2 - length ds) ++ ds.
(** for [fmt2], beep/protocol/biologic_mb_to_maccor.py:152-172 *)
Definition hundredths_text (z : Z) : string :=
  let a := Z.abs z in
  ((if (z <? 0)%Z then "-" else "") ++ digits_text (digits_of (a / 100)) ++ "." ++ digits_text (pad2 (digits_of (a mod 100))))%string.
(** for [b_convert_time], beep/protocol/biologic_mb_to_maccor.py:152-172 *)
Definition fmt2 (x : Q) : string := hundredths_text (round_even (x * 100)).

(** Greek small letter mu; any text other than the micro sign serves here, since a
    decoded ISO-8859-1 file cannot contain it. (for [b_convert_current], beep/protocol/biologic_mb_to_maccor.py:175-192) *)
Definition greek_mu : string := String (ascii_of_nat 206) (String (ascii_of_nat 188) "").

Section Convert.
(** str() of a float (for [b_convert_time], beep/protocol/biologic_mb_to_maccor.py:152-172) *)
Variable show : Q -> string.

(** beep/protocol/biologic_mb_to_maccor.py:152-172 *)
Definition b_convert_time (v : Q) (unit : string) : result string :=
  if String.eqb unit "h" then Ok (show v ++ ":00:00")%string
  else if String.eqb unit "mn" then Ok ("00:" ++ show v ++ ":00")%string
  else if String.eqb unit "s" then Ok ("00:00:" ++ show v)%string
  else if String.eqb unit "ms" then
    let r := v - 10 * inject_Z (Qfloor (v / 10)) in
    if Qle_bool (1 # 10) r && Qle_bool r (99 # 10) then B2M_Exception
    else Ok ("00:00:" ++ fmt2 (v / 1000))%string
  else B2M_Exception.
(** beep/protocol/biologic_mb_to_maccor.py:175-192 *)
Definition b_convert_current (v unit : string) : result string :=
  if String.eqb unit "A" then Ok v
  else if String.eqb unit "mA" then Ok (v ++ "E-3")%string
  else if str_in unit [(greek_mu ++ "A")%string; (micro ++ "A")%string] then Ok (v ++ "E-6")%string
  else if String.eqb unit "nA" then Ok (v ++ "E-9")%string
  else if String.eqb unit "pA" then Ok (v ++ "E-12")%string
  else B2M_Exception.
(** beep/protocol/biologic_mb_to_maccor.py:194-205 *)
Definition b_convert_voltage (v unit : string) : result string :=
  if String.eqb unit "V" then Ok v
  else if String.eqb unit "mV" then Ok (v ++ "E-3")%string
  else B2M_Exception.
(** beep/protocol/biologic_mb_to_maccor.py:207-224 *)
Definition b_convert_resistance (v unit : string) : result string :=
  if String.eqb unit "MOhm" then Ok (v ++ "E6")%string
  else if String.eqb unit "kOhm" then Ok (v ++ "E3")%string
  else if String.eqb unit "Ohm" then Ok v
  else if String.eqb unit "mOhm" then Ok (v ++ "E-3")%string
  else if str_in unit [(greek_mu ++ "Ohm")%string; (micro ++ "Ohm")%string] then Ok (v ++ "E-6")%string
  else B2M_Exception.
(** beep/protocol/biologic_mb_to_maccor.py:226-239 *)
Definition b_convert_power (v unit : string) : result string :=
  if String.eqb unit "W" then Ok v
  else if String.eqb unit "mW" then Ok (v ++ "E-3")%string
  else if str_in unit [(greek_mu ++ "W")%string; (micro ++ "W")%string] then Ok (v ++ "E-6")%string
  else B2M_Exception.

(** A Maccor step: the fields the conversion sets.  [be_stepvalue] is an element
    "StepValue" inside an end entry (259), which Maccor does not define.
    Simplification: Range, Option1-3 and StepNote are left out.
    (for [bstep], beep/protocol/biologic_mb_to_maccor.py:267-284, 752-754) *)
Record bend := { be_type : string; be_oper : string; be_value : string; be_step : string; be_stepvalue : option string }.
(** for [bstep], beep/protocol/biologic_mb_to_maccor.py:267-284, 752-754 *)
Record brep := { br_type : string; br_value : string }.
(** for [plain_step], beep/protocol/biologic_mb_to_maccor.py:267-284, 752-754 *)
Record bstep := { bs_type : string; bs_mode : string; bs_value : string; bs_ends : list bend; bs_reports : list brep }.
(** beep/protocol/biologic_mb_to_maccor.py:267-284, 752-754 *)
Definition plain_step (ty : string) : bstep := {| bs_type := ty; bs_mode := "        "; bs_value := ""; bs_ends := []; bs_reports := [] |}.
(** beep/protocol/biologic_mb_to_maccor.py:267-284, 752-754 *)
Definition adv_step := plain_step "AdvCycle".
(** beep/protocol/biologic_mb_to_maccor.py:267-284, 752-754 *)
Definition do_step := plain_step "  Do 1  ".
(** beep/protocol/biologic_mb_to_maccor.py:267-284, 752-754 *)
Definition end_step := plain_step "  End   ".
(** beep/protocol/biologic_mb_to_maccor.py:241-265 *)
Definition create_loop_step (nums : list (Z * Z)) (d : bseq) : result bstep :=
  let! count := int_fld d "ctrl_repeat" in
  let! to := int_fld d "ctrl_seq" in
  match d_get Z.eqb nums to with
  | None => Err KeyError
  | Some n =>
      let text := stringify_step_num (n - 1) in
      if negb (Nat.eqb (String.length text) 3) then Err AssertionError else
      Ok {| bs_type := " Loop 1 "; bs_mode := "        "; bs_value := "";
            bs_ends := [ {| be_type := "Loop Cnt"; be_oper := " = "; be_value := ""; be_step := text; be_stepvalue := Some (str_int count) |} ];
            bs_reports := [] |}
  end.
(** beep/protocol/biologic_mb_to_maccor.py:382-396 *)
Definition b_oper (comp ty : string) : result string :=
  if String.eqb comp "<" then Ok "<= "%string
  else if String.eqb comp ">" && String.eqb ty "Time" then Ok " = "%string
  else if String.eqb comp ">" then Ok ">= "%string
  else B2M_Exception.
(** beep/protocol/biologic_mb_to_maccor.py:398-421 *)
Definition b_limit (ty unit : string) (v : Q) : result (string * string) :=
  if str_in ty ["Ece"; "Ecell"]%string then let! t := b_convert_voltage (show v) unit in Ok ("Voltage "%string, t)
  else if String.eqb ty "Time" then let! t := b_convert_time v unit in Ok ("StepTime"%string, t)
  else if String.eqb ty "I" then let! t := b_convert_current (show v) unit in Ok ("Current "%string, t)
  else B2M_Exception.
(** beep/protocol/biologic_mb_to_maccor.py:423-451: the step a limit leads to.  [starts] is the argument
    seq_num_is_active_loop_start. *)
Definition b_goto (nums : list (Z * Z)) (starts : list Z) (step_num end_num seq_num goto : Z) (action : string) : result Z :=
  if String.eqb action "End" then Ok end_num
  else if String.eqb action "Next sequence" then Ok (step_num + 1)%Z
  else if String.eqb action "Goto sequence" then
    match d_get Z.eqb nums goto with
    | None => B2M_Exception
    | Some n => if (seq_num <? goto)%Z && existsb (Z.eqb goto) starts then Ok (n - 1)%Z else Ok n
    end
  else B2M_Exception.
(** beep/protocol/biologic_mb_to_maccor.py:372-453, one limit *)
Definition create_end (nums : list (Z * Z)) (starts : list Z) (step_num end_num seq_num : Z) (d : bseq) (lim : nat) : result bend :=
  let! ty := fld d (nth_key "lim" lim "_type") in
  let! comp := fld d (nth_key "lim" lim "_comp") in
  let! unit := fld d (nth_key "lim" lim "_value_unit") in
  let! action := fld d (nth_key "lim" lim "_action") in
  let! v := (let! t := fld d (nth_key "lim" lim "_value") in py_float t) in
  let! goto := int_fld d (nth_key "lim" lim "_seq") in
  let! oper := b_oper comp ty in
  let! tv := b_limit ty unit v in
  let! step := b_goto nums starts step_num end_num seq_num goto action in
  Ok {| be_type := fst tv; be_oper := oper; be_value := snd tv; be_step := stringify_step_num step; be_stepvalue := None |}.
(** beep/protocol/biologic_mb_to_maccor.py:469-507, one record *)
Definition create_report (d : bseq) (rec : nat) : result brep :=
  let! ty := fld d (nth_key "rec" rec "_type") in
  let! unit := fld d (nth_key "rec" rec "_value_unit") in
  let! v := (let! t := fld d (nth_key "rec" rec "_value") in py_float t) in
  if String.eqb ty "Time" then let! t := b_convert_time v unit in Ok {| br_type := "StepTime"; br_value := t |}
  else if str_in ty ["Ece"; "Ecell"]%string then let! t := b_convert_voltage (show v) unit in Ok {| br_type := "Voltage "; br_value := t |}
  else if String.eqb ty "I" then let! t := b_convert_current (show v) unit in Ok {| br_type := "Current "; br_value := t |}
  else if String.eqb ty "Power" then let! t := b_convert_power (show v) unit in Ok {| br_type := "Power "; br_value := t |}
  else B2M_Exception.
(** beep/protocol/biologic_mb_to_maccor.py:312-322: 321 compares with " Charge " (blanks inside the quotes) *)
Definition b_direction (cd : string) : result string :=
  if negb (String.eqb cd "Charge") && negb (String.eqb cd "Discharge") then B2M_Exception
  else Ok (if String.eqb cd " Charge " then "Charge "%string else "Dischrge "%string).
(** beep/protocol/biologic_mb_to_maccor.py:324-360: type, mode, value *)
Definition b_control (ty vs v unit dir : string) : result (string * string * string) :=
  if String.eqb ty "CC" then let! t := b_convert_current v unit in Ok (dir, "Current "%string, t)
  else if String.eqb ty "CV" && String.eqb vs "Ref" then let! t := b_convert_voltage v unit in Ok (dir, "Voltage "%string, t)
  else if String.eqb ty "CV" then B2M_Exception
  else if String.eqb ty "CR" then let! t := b_convert_resistance v unit in Ok (dir, "Resistance "%string, t)
  else if String.eqb ty "CP" then let! t := b_convert_power v unit in Ok (dir, "Power "%string, t)
  else if String.eqb ty "Rest" then Ok ("  Rest  "%string, "        "%string, ""%string)
  else B2M_Exception.
(** beep/protocol/biologic_mb_to_maccor.py:287-516 _create_step *)
Definition create_step (nums : list (Z * Z)) (starts : list Z) (end_num : Z) (d : bseq) : result bstep :=
  let! seq_num := int_fld d "Ns" in
  let! ty := fld d "ctrl_type" in
  let! v := fld d "ctrl1_val" in
  let! unit := fld d "ctrl1_val_unit" in
  let! vs := fld d "ctrl1_val_vs" in
  let! step_num := (match d_get Z.eqb nums seq_num with Some n => Ok n | None => Err KeyError end) in
  let! cd := fld d "charge/discharge" in
  let! dir := b_direction cd in
  let! c := b_control ty vs v unit dir in
  let! nlim := int_fld d "lim_nb" in
  if negb (existsb (Z.eqb nlim) [0; 1; 2; 3]%Z) then B2M_Exception else
  let! ends := mapM (create_end nums starts step_num end_num seq_num d) (seq 1 (Z.to_nat nlim)) in
  let! nrec := int_fld d "rec_nb" in
  if negb (existsb (Z.eqb nrec) [0; 1; 2; 3]%Z) then B2M_Exception else
  let! reports := mapM (create_report d) (seq 1 (Z.to_nat nrec)) in
  Ok {| bs_type := fst (fst c); bs_mode := snd (fst c); bs_value := snd c; bs_ends := ends; bs_reports := reports |}.

(** The fields _create_steps reads again and again.  Simplification: they are read
    for all sequences before the first pass, so a file with several errors may
    raise another of them. (for [info_of], beep/protocol/biologic_mb_to_maccor.py:519-757) *)
Record info := { i_ns : Z; i_loop : bool; i_to : Z; i_inactive : bool; i_repeat : Z; i_limits : Z; i_gotos : list Z; i_dict : bseq }.
(** for [create_steps], beep/protocol/biologic_mb_to_maccor.py:519-757 *)
Definition info_of (d : bseq) : result info :=
  let! ty := fld d "ctrl_type" in
  let! ns := int_fld d "Ns" in
  let! to := int_fld d "ctrl_seq" in
  let! rt := fld d "ctrl_repeat" in
  let! rep := py_int rt in
  let! nlim := int_fld d "lim_nb" in
  let! gotos := (if String.eqb ty "Loop" then Ok [] else mapM (fun k => int_fld d (nth_key "lim" k "_seq")) (seq 1 (Z.to_nat nlim))) in
  Ok {| i_ns := ns; i_loop := String.eqb ty "Loop"; i_to := to; i_inactive := String.eqb rt "0"; i_repeat := rep;
        i_limits := nlim; i_gotos := gotos; i_dict := d |}.

(** for [number_seq], beep/protocol/biologic_mb_to_maccor.py:519-757 *)
Definition zmem (x : Z) (l : list Z) : bool := existsb (Z.eqb x) l.
(** beep/protocol/biologic_mb_to_maccor.py:533-567: from the right, the loop each sequence belongs to; [w_cur] is
    (curr_loop_start, curr_loop_end), None for (inf, inf). *)
Record wstate := { w_in : list (Z * (Z * Z)); w_starts : list Z; w_cur : option (Z * Z) }.
(** for [ranges_pass], beep/protocol/biologic_mb_to_maccor.py:519-757 *)
Definition ranges_step (w : wstate) (s : info) : result wstate :=
  let! w := (if i_loop s && negb (i_inactive s) then
               match w_cur w with
               | Some (start, _) =>
                   if (start <=? i_to s)%Z then B2M_Exception
                   else Ok {| w_in := w_in w; w_starts := i_to s :: w_starts w; w_cur := Some (i_to s, i_ns s) |}
               | None => Ok {| w_in := w_in w; w_starts := i_to s :: w_starts w; w_cur := Some (i_to s, i_ns s) |}
               end
             else Ok w) in
  Ok (match w_cur w with
      | Some (start, stop) =>
          if (start <=? i_ns s)%Z then {| w_in := d_set Z.eqb (w_in w) (i_ns s) (start, stop); w_starts := w_starts w; w_cur := w_cur w |}
          else w
      | None => w
      end).
(** for [create_steps], beep/protocol/biologic_mb_to_maccor.py:519-757 *)
Fixpoint ranges_pass (w : wstate) (l : list info) : result wstate :=
  match l with [] => Ok w | s :: r => let! w := ranges_step w s in ranges_pass w r end.
(** beep/protocol/biologic_mb_to_maccor.py:569-571 *)
Definition starts_ok (w : wstate) : bool :=
  forallb (fun a => match d_get Z.eqb (w_in w) a with Some (start, _) => Z.eqb a start | None => false end) (w_starts w).

(** beep/protocol/biologic_mb_to_maccor.py:580-635: step numbers; [n_steps] is step_num_is_active_loop_start *)
Record nstate := { n_cur : Z; n_steps : list Z; n_blank : list Z; n_nums : list (Z * Z) }.
(** for [number_pass], beep/protocol/biologic_mb_to_maccor.py:519-757 *)
Definition number_seq (seqs : list info) (starts : list Z) (n : nstate) (i : Z) (s : info) : result nstate :=
  if i_loop s && Z.eqb (i_repeat s) 0 then
    Ok {| n_cur := n_cur n; n_steps := n_steps n; n_blank := i_ns s :: n_blank n; n_nums := n_nums n |}
  else if i_loop s && Z.eqb (i_to s) (i_ns s - 1) && zmem (i_ns s - 1) (n_blank n) then
    Ok {| n_cur := n_cur n + 1; n_steps := n_steps n; n_blank := n_blank n; n_nums := d_set Z.eqb (n_nums n) (i_ns s) (n_cur n) |}
  else
    let start := zmem (i_ns s) starts in
    let cur := if start then (n_cur n + 1)%Z else n_cur n in
    let steps := if start then cur :: n_steps n else n_steps n in
    let nums := d_set Z.eqb (n_nums n) (i_ns s) cur in
    let! more := (if i_loop s && Z.eqb (i_to s) (i - 1) && zmem (i - 1) (n_blank n) then Ok 1%Z
                  else if i_loop s then
                    match py_nth seqs (i_to s) with
                    | None => Err IndexError
                    | Some t => if i_loop t then B2M_Exception else Ok 2%Z
                    end
                  else Ok 1%Z) in
    Ok {| n_cur := cur + more; n_steps := steps; n_blank := n_blank n; n_nums := nums |}.
(** for [create_steps], beep/protocol/biologic_mb_to_maccor.py:519-757 *)
Fixpoint number_pass (seqs : list info) (starts : list Z) (n : nstate) (i : Z) (l : list info) : result nstate :=
  match l with [] => Ok n | s :: r => let! n := number_seq seqs starts n i s in number_pass seqs starts n (i + 1) r end.

(** beep/protocol/biologic_mb_to_maccor.py:655-714, one goto *)
Definition goto_legal (rng : list (Z * (Z * Z))) (last seq_num goto : Z) : bool :=
  negb (goto <? last)%Z &&
  match d_get Z.eqb rng seq_num, d_get Z.eqb rng goto with
  | Some (a, b), Some (a', b') => Z.eqb a' a && Z.eqb b' b
  | None, Some (a', _) => Z.eqb goto a'
  | _, None => true
  end.
(** beep/protocol/biologic_mb_to_maccor.py:641-714 *)
Fixpoint check_gotos (rng : list (Z * (Z * Z))) (blank : list Z) (last : Z) (l : list info) : result unit :=
  match l with
  | [] => Ok tt
  | s :: r =>
      if zmem (i_ns s) blank then check_gotos rng blank last r
      else if i_loop s then check_gotos rng blank (i_ns s) r
      else if forallb (goto_legal rng last (i_ns s)) (i_gotos s) then check_gotos rng blank last r
      else B2M_Exception
  end.

(** beep/protocol/biologic_mb_to_maccor.py:718-750, one sequence *)
Definition emit_seq (starts : list Z) (nums : list (Z * Z)) (loop_steps blank : list Z) (end_num : Z) (s : info) : result (list bstep) :=
  if zmem (i_ns s) blank then Ok [] else
  let pre := if zmem (i_ns s) starts then [do_step] else [] in
  if i_loop s && Z.eqb (i_to s) (i_ns s - 1) && zmem (i_ns s - 1) blank then Ok (pre ++ [adv_step])
  else if i_loop s then let! l := create_loop_step nums (i_dict s) in Ok (pre ++ [adv_step; l])
  else let! st := create_step nums loop_steps end_num (i_dict s) in Ok (pre ++ [st]).
(** beep/protocol/biologic_mb_to_maccor.py:519-757 _create_steps *)
Definition create_steps (seqs : list bseq) : result (list bstep) :=
  let! infos := mapM info_of seqs in
  let! w := ranges_pass {| w_in := []; w_starts := []; w_cur := None |} (rev infos) in
  if negb (starts_ok w) then Err AssertionError else
  let! n := number_pass infos (w_starts w) {| n_cur := 1; n_steps := []; n_blank := []; n_nums := [] |} 0 infos in
  let! _ := check_gotos (w_in w) (n_blank n) (-1) infos in
  let! blocks := mapM (emit_seq (w_starts w) (n_nums n) (n_steps n) (n_blank n) (n_cur n)) infos in
  Ok (concat blocks ++ [end_step]).
End Convert.
