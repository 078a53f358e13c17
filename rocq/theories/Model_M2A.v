(** Model of beep/protocol/maccor_to_arbin.py (ProcedureToSchedule). *)
From Verif Require Import Py Model_Text Model_Arbin.

(** A single entry or a list of entries of an XML element, or none.
    Simplification: a single entry is an OrderedDict, as the isinstance tests of
    325 and 363 expect; newer xmltodict versions return plain dictionaries.
    (for [astep], beep/protocol/maccor_to_arbin.py:125, 202) *)
Inductive entries : Type := Absent | Single (d : list (string * string)) | Several (l : list (list (string * string))).
(** A Maccor step.  Simplification: all keys of a step are present; texts in entries
    are never None; [a_note] is str(StepNote). (for [label_of], beep/protocol/maccor_to_arbin.py:125, 202) *)
Record astep := {
  a_note : string; a_type : string; a_mode : option string; a_value : option string;
  a_limits : option (list (string * string)); a_ends : entries; a_reports : entries }.
(** for [convert_end], beep/protocol/maccor_to_arbin.py:400-505 *)
Definition fld (d : list (string * string)) (k : string) : result string :=
  match sget d k with Some v => Ok v | None => Err KeyError end.
(** int(re.search(r"\d+", t).group()) (for [metadata_loop], beep/protocol/maccor_to_arbin.py:109-136) *)
Fixpoint first_number (t : string) : result Z :=
  match t with
  | EmptyString => Err AttributeError
  | String c r => match digit_of c with
                  | Some _ => Ok (digits_val (fst (span_digits t)))
                  | None => first_number r
                  end
  end.
(** beep/protocol/maccor_to_arbin.py:125, 202 *)
Definition label_of (i : nat) (st : astep) : string := (str_int (Z.of_nat i + 1) ++ "-" ++ a_note st)%string.
(** beep/protocol/maccor_to_arbin.py:128-134: from step [j] down to step 2 *)
Fixpoint find_do (steps : list astep) (want : string) (j : nat) : option nat :=
  match j with
  | S (S _ as j') =>
      match nth_error steps j with
      | Some st => if String.eqb (a_type st) want then Some j else find_do steps want j'
      | None => None     (* not reached: the steps looked at exist *)
      end
  | _ => None
  end.
(** beep/protocol/maccor_to_arbin.py:109-136; [last] is do_index, which keeps its value from one loop to the next *)
Fixpoint metadata_loop (steps rest : list astep) (i : nat) (names : list string) (flow : list (Z * string)) (last : option nat)
  : result (list string * list (Z * string)) :=
  match rest with
  | [] => Ok (names, flow)
  | st :: rest =>
      let names := names ++ [label_of i st] in
      if contains "Loop" (a_type st) then
        let! n := first_number (a_type st) in
        let last := match find_do steps ("Do " ++ str_int n) (i - 1) with Some d => Some d | None => last end in
        match last with
        | None => Err (OtherError "UnboundLocalError")
        | Some d => match nth_error names (S d) with
                    | None => Err IndexError
                    | Some l => metadata_loop steps rest (S i) names (d_set Z.eqb flow (Z.of_nat i) l) last
                    end
        end
      else metadata_loop steps rest (S i) names flow last
  end.
(** beep/protocol/maccor_to_arbin.py:109-136 create_metadata *)
Definition create_metadata (steps : list astep) : result (list string * list (Z * string)) := metadata_loop steps steps 0 [] [] None.

(** beep/protocol/protocol_schemas/arbin_schedule_schema.yaml:1-34 *)
Definition blank_body : list (string * node) :=
  map (fun kv => (fst kv, Leaf (snd kv)))
  [("m_uLimitNum", ""); ("m_szLabel", ""); ("m_szStepCtrlType", ""); ("m_szCurrentRange", ""); ("m_szVoltageRange", "High");
   ("m_szCtrlValue", ""); ("m_szExtCtrlValue1", ""); ("m_szExtCtrlValue2", ""); ("m_szExtDef", ""); ("m_uStepCtrlTypeExtFlag", "0");
   ("m_szAddIn", ""); ("m_bSampleClockStretch", "0"); ("m_szUnitType", ""); ("m_szExUnitType1", ""); ("m_bSynchronizedStart", "0");
   ("m_bAutoPidTips", "0"); ("m_nExtra1", "0"); ("m_szExtDef1", ""); ("m_bBurstModeEnable", "0")]%string.
(** for [limit_with], beep/protocol/maccor_to_arbin.py:389-398 *)
Definition blank_limit : list (string * string) :=
  [("m_bStepLimit", ""); ("m_bLogDataLimit", ""); ("m_szGotoStep", ""); ("Equation0_szLeft", ""); ("Equation0_szCompareSign", ""); ("Equation0_szRight", "");
   ("Equation1_szLeft", ""); ("Equation1_szCompareSign", ""); ("Equation1_szRight", ""); ("Equation2_szLeft", ""); ("Equation2_szCompareSign", ""); ("Equation2_szRight", "")]%string.
(** for [puts], beep/protocol/maccor_to_arbin.py:206-309 *)
Definition put (b : list (string * node)) (k v : string) : list (string * node) := sset b k (Leaf v).
(** for [set_control], beep/protocol/maccor_to_arbin.py:206-309 *)
Definition puts (b : list (string * node)) (kvs : list (string * string)) : list (string * node) := fold_left (fun b kv => put b (fst kv) (snd kv)) kvs b.
(** for [put_limits], beep/protocol/maccor_to_arbin.py:138-386 *)
Definition as_node (d : list (string * string)) : node := Dict (map (fun kv => (fst kv, Leaf (snd kv))) d).
(** for [add_blank_limit], beep/protocol/maccor_to_arbin.py:389-398 *)
Definition limit_with (kvs : list (string * string)) : list (string * string) := fold_left (fun d kv => sset d (fst kv) (snd kv)) kvs blank_limit.

(** str.replace(c, "") and str.replace with single characters
    (for [current_limit], beep/protocol/maccor_to_arbin.py:437-469) *)
Fixpoint drop_char (c : ascii) (s : string) : string :=
  match s with EmptyString => EmptyString | String d r => if Ascii.eqb d c then drop_char c r else String d (drop_char c r) end.
(** str.replace("::", "00:00:0") (for [elapsed], beep/protocol/maccor_to_arbin.py:474-487, 545-558) *)
Fixpoint fill_hours (s : string) : string :=
  match s with
  | String ":" (String ":" r) => ("00:00:0" ++ fill_hours r)%string
  | String c r => String c (fill_hours r)
  | EmptyString => EmptyString
  end.
(** datetime.strptime(s, "%H:%M:%S"): one or two digits each, in range
    (for [clock_seconds], beep/protocol/maccor_to_arbin.py:474-487, 545-558) *)
Definition clock_field (bound : Z) (s : string) : result Z :=
  match span_digits s with
  | (ds, EmptyString) => if (1 <=? length ds)%nat && (length ds <=? 2)%nat && (digits_val ds <? bound)%Z then Ok (digits_val ds) else Err ValueError
  | _ => Err ValueError
  end.
(** for [elapsed], beep/protocol/maccor_to_arbin.py:474-487, 545-558 *)
Definition clock_seconds (s : string) : result Z :=
  match str_split ":" s with
  | [h; m; sec] =>
      let! h := clock_field 24 h in let! m := clock_field 60 m in let! sec := clock_field 60 sec in
      Ok (h * 3600 + m * 60 + sec)%Z
  | _ => Err ValueError
  end.
(** for [elapsed], beep/protocol/maccor_to_arbin.py:474-487, 545-558 *)
Fixpoint take_chars (n : nat) (s : string) : string :=
  match n, s with S k, String c r => String c (take_chars k r) | _, _ => EmptyString end.
(** beep/protocol/maccor_to_arbin.py:474-487, 545-558.  "." in the value: exactly one is required, else unpacking fails.
    The fraction is at most six digits, so the microseconds are in range. *)
Definition elapsed (t : string) : result Q :=
  if contains "." t then
    match str_split "." t with
    | [nofrag; frag] =>
        let frag := take_chars 6 frag in
        let frag := (frag ++ digits_text (zeros (6 - String.length frag)))%string in
        let! s := clock_seconds (fill_hours nofrag) in
        let! us := py_int frag in
        if (us <? 0)%Z then Err ValueError else Ok (inject_Z s + inject_Z us / 1000000)
    | _ => Err ValueError
    end
  else let! s := clock_seconds (fill_hours t) in Ok (inject_Z s).

Section Show.
  (** str of a float (for [convert_end], beep/protocol/maccor_to_arbin.py:400-505) *)
  Variable show : Q -> string.

  (** beep/protocol/maccor_to_arbin.py:389-398 add_blank_limit *)
  Definition add_blank_limit : list (string * string) :=
    limit_with [("m_bStepLimit", "1"); ("m_bLogDataLimit", "0"); ("m_szGotoStep", "Next Step"); ("Equation0_szLeft", "PV_CHAN_Step_Time");
                ("Equation0_szCompareSign", ">"); ("Equation0_szRight", "0")]%string.
  (** beep/protocol/maccor_to_arbin.py:437-469: a current on which a step ends *)
  Definition current_limit (left step_type oper value : string) : result (list (string * string)) :=
    if String.eqb step_type "Charge" then
      Ok [("Equation0_szLeft", left); ("Equation0_szRight", value); ("Equation0_szCompareSign", drop_char " " oper)]%string
    else if String.eqb step_type "Dischrge" then
      Ok [("Equation0_szLeft", left); ("Equation0_szRight", "-" ++ value); ("Equation0_szCompareSign", replace_char "<" ">" (drop_char " " oper))]%string
    else Err ValueError.
  (** beep/protocol/maccor_to_arbin.py:400-505 convert_end_to_limit *)
  Definition convert_end (ctrl : string) (e : list (string * string)) (i : nat) (names : list string) (step_type : string) (flow : list (Z * string))
    : result (list (string * string)) :=
    let! step := fld e "Step" in
    let! goto := if String.eqb step (zfill 3 (str_int (Z.of_nat i + 2))) then Ok "Next Step"%string
                 else (let! n := py_int step in
                       match py_nth names (n - 1) with Some l => Ok l | None => Err IndexError end) in
    let! ty := fld e "EndType" in
    let head := [("m_bStepLimit", "1"); ("m_bLogDataLimit", "1"); ("m_szGotoStep", goto)]%string in
    let! rest :=
      if String.eqb ty "Voltage" then
        let! o := fld e "Oper" in let! v := fld e "Value" in
        Ok [("Equation0_szLeft", "PV_CHAN_Voltage"); ("Equation0_szCompareSign", drop_char " " o); ("Equation0_szRight", v)]%string
      else if String.eqb ty "Current" && String.eqb ctrl "CCCV" then
        let! o := fld e "Oper" in let! v := fld e "Value" in current_limit "PV_CHAN_CV_Stage_Current" step_type o v
      else if String.eqb ty "Current" && String.eqb ctrl "Voltage(V)" then
        let! o := fld e "Oper" in let! v := fld e "Value" in current_limit "PV_CHAN_Current" step_type o v
      else if String.eqb ty "StepTime" then
        let! v := fld e "Value" in let! t := elapsed v in
        Ok [("Equation0_szLeft", "PV_CHAN_Step_Time"); ("Equation0_szCompareSign", ">"); ("Equation0_szRight", show t)]%string
      else if String.eqb ty "Loop Cnt" then
        let! n := first_number step_type in let! o := fld e "Oper" in let! v := fld e "Value" in
        Ok [("Equation0_szLeft", "TC_Counter" ++ str_int n); ("Equation0_szCompareSign", drop_char " " o); ("Equation0_szRight", v)]%string
      else if String.eqb ty "Loop Addendum" then
        let! n := first_number step_type in
        match d_get Z.eqb flow (Z.of_nat i) with
        | None => Err KeyError
        | Some g => let! v := fld e "Value" in
            Ok [("m_szGotoStep", g); ("Equation0_szLeft", "TC_Counter" ++ str_int n); ("Equation0_szCompareSign", "<"); ("Equation0_szRight", v)]%string
        end
      else Err ValueError in
    Ok (limit_with (head ++ rest)).
  (** beep/protocol/maccor_to_arbin.py:507-560 convert_report_to_logging_limit *)
  Definition convert_report (r : list (string * string)) : result (list (string * string)) :=
    let! ty := fld r "ReportType" in
    let head := [("m_bStepLimit", "0"); ("m_bLogDataLimit", "1"); ("m_szGotoStep", "Next Step")]%string in
    let! rest :=
      if String.eqb ty "Voltage" then
        let! v := fld r "Value" in Ok [("Equation0_szLeft", "DV_Voltage"); ("Equation0_szCompareSign", ">"); ("Equation0_szRight", v)]%string
      else if String.eqb ty "Current" then
        let! v := fld r "Value" in Ok [("Equation0_szLeft", "DV_Current"); ("Equation0_szRight", v); ("Equation0_szCompareSign", ">")]%string
      else if String.eqb ty "StepTime" then
        let! v := fld r "Value" in let! t := elapsed v in
        Ok [("Equation0_szLeft", "DV_Time"); ("Equation0_szCompareSign", ">"); ("Equation0_szRight", show t)]%string
      else Ok [] in
    Ok (limit_with (head ++ rest)).

  (** beep/protocol/maccor_to_arbin.py:206-309: control type and values.  The second result is the step's end entries,
      which a Loop step changes in place. *)
  Definition set_control (st : astep) (i : nat) (flow : list (Z * string)) (b : list (string * node)) : result (list (string * node) * entries) :=
    let charge := String.eqb (a_type st) "Charge" in
    let discharge := String.eqb (a_type st) "Dischrge" in
    let same r := (let! b := r in Ok (b, a_ends st)) in
    match a_mode st with
    | Some m =>
        if String.eqb m "Current" then
          match a_value st with
          | None => Err TypeError
          | Some v =>
              if contains "C" v then
                same (match a_limits st with
                      | Some l =>
                          let b := put b "m_szStepCtrlType" "CCCV" in
                          if charge then let! u := fld l "Voltage" in Ok (puts b [("m_szCtrlValue", drop_char "C" v); ("m_szExtCtrlValue1", u); ("m_szExtCtrlValue2", "0")]%string)
                          else if discharge then Ok (put b "m_szCtrlValue" ("-" ++ drop_char "C" v))
                          else Ok b
                      | None =>
                          let b := put b "m_szStepCtrlType" "C-Rate" in
                          if charge then Ok (put b "m_szCtrlValue" (drop_char "C" v))
                          else if discharge then Ok (put b "m_szCtrlValue" ("-" ++ drop_char "C" v))
                          else Ok b
                      end)
              else
                same (match a_limits st with
                      | Some l =>
                          let b := put b "m_szStepCtrlType" "CCCV" in
                          if charge then let! u := fld l "Voltage" in Ok (puts b [("m_szCtrlValue", v); ("m_szExtCtrlValue1", u); ("m_szExtCtrlValue2", "0")]%string)
                          else if discharge then let! u := fld l "Voltage" in Ok (puts b [("m_szCtrlValue", "-" ++ v); ("m_szExtCtrlValue1", u); ("m_szExtCtrlValue2", "0")]%string)
                          else Ok b
                      | None =>
                          let b := put b "m_szStepCtrlType" "Current(A)" in
                          if charge then Ok (put b "m_szCtrlValue" v)
                          else if discharge then Ok (put b "m_szCtrlValue" ("-" ++ v))
                          else Ok b
                      end)
          end
        else if String.eqb m "Voltage" then
          same (match a_limits st with
                | Some l =>
                    let! c := fld l "Current" in
                    if contains "C" c then Err ValueError
                    else
                      let b := put b "m_szStepCtrlType" "CCCV" in
                      if charge || discharge then
                        match a_value st with
                        | None => Err TypeError      (* simplification: None would be stored *)
                        | Some v => Ok (puts b [("m_szCtrlValue", (if charge then "" else "-") ++ c); ("m_szExtCtrlValue1", v); ("m_szExtCtrlValue2", "0")]%string)
                        end
                      else Ok b
                | None =>
                    let b := put b "m_szStepCtrlType" "Voltage(V)" in
                    if charge || discharge then
                      match a_value st with None => Err TypeError | Some v => Ok (put b "m_szCtrlValue" v) end
                    else Ok b
                end)
        else Err ValueError
    | None =>
        if String.eqb (a_type st) "Rest" then
          same (match a_limits st with None => Ok (put b "m_szStepCtrlType" "Rest") | Some _ => Err ValueError end)
        else if str_in (a_type st) ["Loop 1"; "Do 1"; "Loop 2"; "Do 2"; "AdvCycle"; "End"]%string then
          if String.eqb (a_type st) "AdvCycle" then
            same (Ok (puts b [("m_szStepCtrlType", "Set Variable(s)"); ("m_szCtrlValue", "15"); ("m_szExtCtrlValue1", "1"); ("m_szExtCtrlValue2", "0")]%string))
          else if contains "Loop" (a_type st) then
            let! n := first_number (a_type st) in
            let b := puts b [("m_szStepCtrlType", "Set Variable(s)"); ("m_szCtrlValue", "0"); ("m_szExtCtrlValue1", str_int (2 ^ n)); ("m_szExtCtrlValue2", "0")]%string in
            match d_get Z.eqb flow (Z.of_nat i) with
            | None => Err KeyError
            | Some g =>
                match a_ends st with
                | Single e =>
                    let! v := fld e "Value" in
                    let addendum := [("EndType", "Loop Addendum"); ("Oper", "< "); ("Step", hd EmptyString (str_split "-" g)); ("Value", v)]%string in
                    Ok (b, Several [addendum; e])
                | _ => Err TypeError
                end
            end
          else if contains "Do" (a_type st) then
            let! n := first_number (a_type st) in
            same (Ok (puts b [("m_szStepCtrlType", "Set Variable(s)"); ("m_szCtrlValue", str_int (2 ^ (n + 15))); ("m_szExtCtrlValue1", "0"); ("m_szExtCtrlValue2", "0")]%string))
          else same (Ok (put b "m_szStepCtrlType" "Rest"))
        else Err ValueError
    end.
  (** for [put_limits], beep/protocol/maccor_to_arbin.py:138-386 *)
  Definition limit_key (k : nat) : string := ("Limit" ++ str_int (Z.of_nat k))%string.
  (** for [end_limits], beep/protocol/maccor_to_arbin.py:314-353 *)
  Definition ctrl_type (b : list (string * node)) : string := match sget b "m_szStepCtrlType" with Some (Leaf t) => t | _ => EmptyString end.
  (** for [compile], beep/protocol/maccor_to_arbin.py:138-386 *)
  Fixpoint put_limits (k : nat) (ls : list (list (string * string))) (b : list (string * node)) : list (string * node) :=
    match ls with [] => b | l :: r => put_limits (S k) r (sset b (limit_key k) (as_node l)) end.
  (** beep/protocol/maccor_to_arbin.py:314-353: the limits made of end conditions; also m_uLimitNum *)
  Definition end_limits (b : list (string * node)) (ends : entries) (i : nat) (names : list string) (step_type : string) (flow : list (Z * string))
    : result (list (list (string * string))) :=
    match ends with
    | Absent => Ok [add_blank_limit]
    | Single e => let! l := convert_end (ctrl_type b) e i names step_type flow in Ok [l]
    | Several es => mapM (fun e => convert_end (ctrl_type b) e i names step_type flow) es
    end.
  (** len(EndEntry): of a single entry it is the number of its fields
      (for [compile], beep/protocol/maccor_to_arbin.py:138-386) *)
  Definition entries_len (e : entries) : result nat :=
    match e with Absent => Err TypeError | Single d => Ok (length d) | Several l => Ok (length l) end.
  (** beep/protocol/maccor_to_arbin.py:138-386 compile_to_arbin *)
  Definition compile (st : astep) (i : nat) (names : list string) (flow : list (Z * string)) (current_range : string)
    : result (list (string * node) * astep) :=
    let b := puts blank_body [("m_szLabel", label_of i st); ("m_szCurrentRange", current_range)]%string in
    let! bs := set_control st i flow b in
    let (b, ends) := bs in
    let st' := {| a_note := a_note st; a_type := a_type st; a_mode := a_mode st; a_value := a_value st;
                  a_limits := a_limits st; a_ends := ends; a_reports := a_reports st |} in
    let! ls := end_limits b ends i names (a_type st) flow in
    let b := put_limits 0 ls b in
    let n := length ls in
    (* 355-380 *)
    let! nb :=
      match a_reports st with
      | Absent => Ok (n, b)
      | Single r =>
          let! start := entries_len ends in
          let! l := convert_report r in
          Ok (S n, put_limits start [l] b)
      | Several rs =>
          match ends with
          | Absent => Err TypeError
          | Single _ => Ok (n, b)
          | Several es =>
              let! rl := mapM convert_report rs in
              Ok ((n + length rs)%nat, put_limits (length es) rl b)
          end
      end in
    let (n, b) := (nb : nat * list (string * node)) in
    Ok (put b "m_uLimitNum" (str_int (Z.of_nat n)), st').

  (** beep/protocol/maccor_to_arbin.py:46-107 create_sdu, on the schedule as read; the result is written with to_file.
      [scopes] are the three safety ranges as texts, [temp] says that the temperature
      range is not the default. *)
  Definition numbered (p key : string) : bool :=     (* re.match(p + "[0-9]+", key) *)
    String.prefix p key &&
    match String.substring (String.length p) 1 key with String c _ => match digit_of c with Some _ => true | None => false end | EmptyString => false end.
  (** for [create_sdu], beep/protocol/maccor_to_arbin.py:46-107 create_sdu *)
  Fixpoint compile_steps (steps : list astep) (i : nat) (names : list string) (flow : list (Z * string)) (current_range : string) (s : node)
    : result (node * list astep) :=
    match steps with
    | [] => Ok (s, [])
    | st :: r =>
        let! bs := compile st i names flow current_range in
        let! s := set_path ("Schedule.Step" ++ str_int (Z.of_nat i)) (Dict (fst bs)) s in
        let! sr := compile_steps r (S i) names flow current_range s in
        Ok (fst sr, snd bs :: snd sr)
    end.
  (** for [create_sdu], beep/protocol/maccor_to_arbin.py:46-107 create_sdu *)
  Fixpoint set_paths (kvs : list (string * node)) (s : node) : result node :=
    match kvs with [] => Ok s | (k, v) :: r => let! s := set_path ("Schedule." ++ k) v s in set_paths r s end.
  (** beep/protocol/maccor_to_arbin.py:46-107 create_sdu *)
  Definition create_sdu (steps : list astep) (current_range : string) (scopes : string * string * string) (temp : bool) (s : node) : result (node * list astep) :=
    match s with
    | Leaf _ => Err TypeError
    | Dict kvs =>
        match sget kvs "Schedule" with
        | None => Err KeyError
        | Some (Leaf _) => Err AttributeError
        | Some (Dict sched) =>
            let safety := filter (fun kv => negb (numbered "Step" (fst kv)) && numbered "UserDefineSafety" (fst kv)) sched in
            let kept := filter (fun kv => negb (numbered "Step" (fst kv)) && negb (numbered "UserDefineSafety" (fst kv))) sched in
            let s := Dict (sset kvs "Schedule" (Dict kept)) in
            let! nf := create_metadata steps in
            let (names, flow) := nf in
            let '(v, t, c) := scopes in
            let! s := set_paths ([("m_uStepNum", Leaf (str_int (Z.of_nat (length names)))); ("m_VoltageSafetyScope", Leaf v);
                                  ("m_AuxTempSafetyScope", Leaf t); ("m_CurrentSafetyScope", Leaf c)]%string ++
                                 (if temp then [("m_AuxSafetyEnabled", Leaf "0^0 ; 1^1 ; 2^0 ; 3^0 ; 4^0 ; 5^0 ; 6^0 ; 7^0 ; 8^0 ; 9^0 ; 10^0 ; 11^0")]%string else [])) s in
            let! sr := compile_steps steps 0 names flow current_range s in
            let! s := set_paths safety (fst sr) in
            Ok (s, snd sr)
        end
    end.
End Show.
