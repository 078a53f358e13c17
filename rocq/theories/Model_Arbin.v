(** Model of beep/protocol/arbin.py (Schedule) and of the nested dictionary it is
    built on (beep/utils/__init__.py:9-37 DashOrderedDict, that is pydash). *)
From Verif Require Import Py Model_Text.

(** Nested settings.  Simplification: all values that are not dictionaries are strings.
    (beep/utils/__init__.py:9-37 DashOrderedDict) *)
Inductive node : Type := Leaf (v : string) | Dict (kvs : list (string * node)).

(** beep/utils/__init__.py:24 get_path and 21 set, on the list of keys of the path.
    Simplification: a path is split at every "."; pydash's escapes and list indices
    in brackets are not interpreted. *)
Fixpoint get_keys (p : list string) (n : node) : option node :=
  match p with
  | [] => Some n
  | k :: r => match n with
              | Leaf _ => None
              | Dict kvs => match sget kvs k with Some m => get_keys r m | None => None end
              end
  end.
(** beep/utils/__init__.py:21-22 set *)
Fixpoint set_keys (p : list string) (v : node) (n : node) : result node :=
  match p with
  | [] => Ok v
  | k :: r => match n with
              | Leaf _ => Err TypeError
              | Dict kvs =>
                  let! m := set_keys r v (match sget kvs k with Some m => m | None => Dict [] end) in
                  Ok (Dict (sset kvs k m))
              end
  end.
(** 27 unset (beep/utils/__init__.py:27-28 unset) *)
Fixpoint unset_keys (p : list string) (n : node) : node :=
  match p, n with
  | [k], Dict kvs => Dict (sdel kvs k)
  | k :: r, Dict kvs => match sget kvs k with Some m => Dict (sset kvs k (unset_keys r m)) | None => n end
  | _, _ => n
  end.
(** beep/utils/__init__.py:24-25 get_path *)
Definition get_path (path : string) (n : node) : option node := get_keys (str_split "." path) n.
(** beep/utils/__init__.py:21-22 set *)
Definition set_path (path : string) (v : node) (n : node) : result node := set_keys (str_split "." path) v n.
(** beep/utils/__init__.py:27-28 unset *)
Definition unset_path (path : string) (n : node) : node := unset_keys (str_split "." path) n.

(** beep/protocol/arbin.py:236-257 _get_headings with delimiter "." *)
Fixpoint get_headings (n : node) : list string :=
  match n with
  | Leaf _ => []
  | Dict kvs =>
      (fix go (kvs : list (string * node)) : list string :=
         match kvs with
         | [] => []
         | (k, b) :: r => match b with Leaf _ => [] | Dict _ => k :: map (fun h => (k ++ "." ++ h)%string) (get_headings b) end ++ go r
         end) kvs
  end.

(** for [crlf], beep/protocol/arbin.py:71-109 to_file *)
Definition nl : ascii := ascii_of_nat 10.
(** for [crlf], beep/protocol/arbin.py:71-109 to_file *)
Definition cr : ascii := ascii_of_nat 13.
(** for [block_text], beep/protocol/arbin.py:71-109 to_file *)
Definition crlf : string := String cr (String nl "").
(** str.replace with single characters (for [take_sections], beep/protocol/arbin.py:90-98) *)
Fixpoint replace_char (a b : ascii) (s : string) : string :=
  match s with EmptyString => EmptyString | String c r => String (if Ascii.eqb c a then b else c) (replace_char a b r) end.

(** beep/protocol/arbin.py:90-98 of to_file: taking the sections out, innermost and last first *)
Fixpoint take_sections (keys : list string) (data : node) : result (list (string * node)) :=
  match keys with
  | [] => Ok []
  | k :: r =>
      match get_path k data with
      | None => Err AttributeError
      | Some b => let! l := take_sections r (unset_path k data) in Ok ((replace_char "." "_" k, b) :: l)
      end
  end.
(** beep/protocol/arbin.py:100-107 *)
Definition body_lines (b : node) : result (list string) :=
  match b with
  | Leaf _ => Err AttributeError
  | Dict kvs => mapM (fun kv => match snd kv with Leaf v => Ok (fst kv ++ "=" ++ v)%string | Dict _ => Err TypeError end) kvs
  end.
(** beep/protocol/arbin.py:71-109 to_file *)
Definition block_text (tb : string * node) : result string :=
  let! ls := body_lines (snd tb) in
  Ok (join crlf ["[" ++ fst tb ++ "]"; join crlf ls])%string.
(** beep/protocol/arbin.py:71-109 to_file: the text written, with the default line separator *)
Definition schedule_text (data : node) : result string :=
  let! tuples := take_sections (rev (get_headings data)) data in
  let! blocks := mapM block_text (rev tuples) in
  Ok (join crlf blocks ++ crlf)%string.

(** [s] at the first [c]: the texts before and after it (for [find_heading], beep/protocol/arbin.py:62-63) *)
Fixpoint cut_first (c : ascii) (s : string) : option (string * string) :=
  match s with
  | EmptyString => None
  | String d r => if Ascii.eqb d c then Some (EmptyString, r)
                  else match cut_first c r with Some (a, b) => Some (String d a, b) | None => None end
  end.
(** ... and at the last (for [find_heading], beep/protocol/arbin.py:62-63) *)
Fixpoint cut_last (c : ascii) (s : string) : option (string * string) :=
  match s with
  | EmptyString => None
  | String d r => match cut_last c r with
                  | Some (a, b) => Some (String d a, b)
                  | None => if Ascii.eqb d c then Some (EmptyString, r) else None
                  end
  end.
(** The match of \[(.+)\] in a line: from the first opening to the last closing
    bracket, with something in between.  There is at most one in a line. (for [scan], beep/protocol/arbin.py:62-63) *)
Definition find_heading (line : string) : option (string * string * string) :=
  match cut_first "[" line with
  | None => None
  | Some (a, b) => match cut_last "]" b with
                   | None => None
                   | Some (g, c) => if String.eqb g "" then None else Some (a, g, c)
                   end
  end.
(** beep/protocol/arbin.py:62-63: headings and the texts that follow them *)
Fixpoint scan (lines : list string) (cur : option (string * string)) : list (string * string) :=
  match lines with
  | [] => match cur with Some hb => [hb] | None => [] end
  | line :: r =>
      match find_heading line with
      | Some (a, g, c) =>
          match cur with Some (h, b) => [(h, (b ++ String nl a)%string)] | None => [] end ++ scan r (Some (g, c))
      | None => scan r (match cur with Some (h, b) => Some (h, (b ++ String nl line)%string) | None => None end)
      end
  end.
(** beep/protocol/arbin.py:42-69 from_file *)
Definition split_headings (text : string) : list (string * string) := scan (str_split (String nl "") text) None.

(** str.strip on ISO-8859-1 characters (for [lstrip], beep/protocol/arbin.py:42-69 from_file) *)
Definition is_space (c : ascii) : bool :=
  let n := nat_of_ascii c in
  ((9 <=? n)%nat && (n <=? 13)%nat) || ((28 <=? n)%nat && (n <=? 32)%nat) || (n =? 133)%nat || (n =? 160)%nat.
(** for [strip], beep/protocol/arbin.py:42-69 from_file *)
Fixpoint lstrip (s : string) : string :=
  match s with EmptyString => s | String c r => if is_space c then lstrip r else s end.
(** for [strip], beep/protocol/arbin.py:42-69 from_file *)
Fixpoint rstrip (s : string) : string :=
  match s with
  | EmptyString => s
  | String c r => match rstrip r with EmptyString => if is_space c then EmptyString else String c EmptyString | t => String c t end
  end.
(** for [parse_body], beep/protocol/arbin.py:42-69 from_file *)
Definition strip (s : string) : string := rstrip (lstrip s).
(** re.split(r"[\r\n]+", s) (for [split_eol], beep/protocol/arbin.py:42-69 from_file) *)
Definition is_eol (c : ascii) : bool := Ascii.eqb c cr || Ascii.eqb c nl.
(** for [parse_body], beep/protocol/arbin.py:42-69 from_file *)
Fixpoint split_eol (s : string) : string * list string :=     (* first line, other lines *)
  match s with
  | EmptyString => (EmptyString, [])
  | String c r =>
      let (l, ls) := split_eol r in
      if is_eol c then
        (EmptyString, match r with String d _ => if is_eol d then ls else l :: ls | EmptyString => [l] end)
      else (String c l, ls)
  end.
(** beep/protocol/arbin.py:64-65 *)
Definition entry_of (line : string) : result (string * string) :=
  match cut_first "=" line with Some kv => Ok kv | None => Err ValueError end.
(** beep/protocol/arbin.py:42-69 from_file *)
Definition parse_body (body : string) : result node :=
  let (l, ls) := split_eol (strip body) in
  let! es := mapM entry_of (l :: ls) in
  Ok (Dict (fold_left (fun d kv => sset d (fst kv) (Leaf (snd kv))) es [])).
(** beep/protocol/arbin.py:66-67 *)
Fixpoint load_sections (secs : list (string * string)) (obj : node) : result node :=
  match secs with
  | [] => Ok obj
  | (h, b) :: r =>
      let! d := parse_body b in
      let! obj := set_path (replace_char "_" "." h) d obj in
      load_sections r obj
  end.
(** beep/protocol/arbin.py:42-69 from_file, on the decoded text *)
Definition schedule_of (text : string) : result node := load_sections (split_headings text) (Dict []).

(** beep/protocol/arbin.py:143-161: keys of the schedule section in order *)
Definition schedule_keys (s : node) : result (list string) :=
  match s with
  | Leaf _ => Err TypeError
  | Dict kvs => match sget kvs "Schedule" with
                | None => Err KeyError
                | Some (Leaf _) => Err AttributeError
                | Some (Dict steps) => Ok (map fst steps)
                end
  end.
(** for [has_label], beep/protocol/arbin.py:163-190 *)
Definition leaf_is (n : option node) (v : string) : bool :=
  match n with Some (Leaf w) => String.eqb w v | _ => false end.
(** The filter is lazy: each label is looked up when its turn comes. (for [label_loop], beep/protocol/arbin.py:163-190) *)
Definition has_label (s : node) (label step : string) : bool :=
  leaf_is (get_path ("Schedule." ++ step ++ ".m_szLabel") s) label.
(** beep/protocol/arbin.py:163-190 *)
Fixpoint label_loop (label key value : string) (first : bool) (steps : list string) (s : node) : result node :=
  match steps with
  | [] => Ok s
  | k :: r =>
      if has_label s label k then
        let! s := set_path ("Schedule." ++ k ++ "." ++ key) (Leaf value) s in
        if first then Ok s else label_loop label key value first r s
      else label_loop label key value first r s
  end.
(** beep/protocol/arbin.py:163-190 set_labelled_steps *)
Definition set_labelled_steps (s : node) (label key value : string) (first : bool) : result node :=
  let! steps := schedule_keys s in label_loop label key value first steps s.
(** beep/protocol/arbin.py:213-233, the limits of one step.  Simplification: warnings are not modelled. *)
Fixpoint limit_loop (step var comp value : string) (limits : list string) (s : node) : result node :=
  match limits with
  | [] => Ok s
  | l :: r =>
      match get_path ("Schedule." ++ step) s with
      | Some (Dict d) =>
          match sget d l with
          | None => Err KeyError
          | Some (Leaf _) => Err TypeError
          | Some (Dict ld) =>
              match sget ld "m_bStepLimit" with
              | None => Err KeyError
              | Some flag =>
                  if leaf_is (Some flag) "1" then
                    match sget ld "Equation0_szLeft" with
                    | None => Err KeyError
                    | Some left_ =>
                        if leaf_is (Some left_) var then
                          let! s := set_path ("Schedule." ++ step ++ "." ++ l ++ ".Equation0_szCompareSign") (Leaf comp) s in
                          let! s := set_path ("Schedule." ++ step ++ "." ++ l ++ ".Equation0_szRight") (Leaf value) s in
                          limit_loop step var comp value r s
                        else limit_loop step var comp value r s
                    end
                  else limit_loop step var comp value r s
              end
          end
      | _ => Err AttributeError
      end
  end.
(** beep/protocol/arbin.py:192-233 set_labelled_limits *)
Fixpoint limits_loop (label var comp value : string) (steps : list string) (s : node) : result node :=
  match steps with
  | [] => Ok s
  | k :: r =>
      if has_label s label k then
        match get_path ("Schedule." ++ k) s with
        | Some d =>
            let! s := limit_loop k var comp value (filter (String.prefix "Limit") (get_headings d)) s in
            limits_loop label var comp value r s
        | None => Err AttributeError
        end
      else limits_loop label var comp value r s
  end.
(** beep/protocol/arbin.py:192-233 *)
Definition set_labelled_limits (s : node) (label var comp value : string) : result node :=
  let! steps := schedule_keys s in limits_loop label var comp value steps s.

(** "{0:.3f}".format(x).rstrip("0") (for [short3], beep/protocol/arbin.py:111-141) *)
Fixpoint rstrip0 (s : string) : string :=
  match s with
  | EmptyString => s
  | String c r => match rstrip0 r with EmptyString => if Ascii.eqb c "0" then EmptyString else String c EmptyString | t => String c t end
  end.
(** for [from_fast_charge], beep/protocol/arbin.py:111-141 *)
Definition short3 (x : Q) : string := rstrip0 (fmt3 x).
(** beep/protocol/arbin.py:111-141 from_fast_charge, on the template as read *)
Definition from_fast_charge (cc1 cap cc2 : Q) (template : node) : result node :=
  let! s := set_labelled_steps template "CC1" "m_szCtrlValue" (short3 cc1) true in
  let! s := set_labelled_limits s "CC1" "PV_CHAN_Charge_Capacity" ">" (short3 cap) in
  set_labelled_steps s "CC2" "m_szCtrlValue" (short3 cc2) true.
