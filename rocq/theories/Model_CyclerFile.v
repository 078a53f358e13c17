(** Model of the readers of raw Biologic and Novonix files around their tables:
    BiologicDatapath.parse_metadata and from_file (beep/structure/biologic.py:60-143, 146-214) and
    NovonixDatapath.from_file (beep/structure/novonix.py:19-200).
    Simplifications: texts are lists of bytes; float() and the hash are parameters; decoding of
    bytes beyond ASCII, quotation marks and cells read as missing by pd.read_csv are not modelled. *)
From Verif Require Import Py Num Model_Text Model_Arbin Model_Biologic Model_Readers Model_Stamp Model_RawFile.

(** ** Text of bytes *)

(** a backslash (for [byte_text], beep/structure/biologic.py:174) *)
Definition bs : ascii := ascii_of_nat 92.
(** a quotation mark (for [bytes_str], beep/structure/biologic.py:174) *)
Definition dq : ascii := ascii_of_nat 34.
(** an apostrophe (for [bytes_str], beep/structure/biologic.py:174) *)
Definition sq : ascii := ascii_of_nat 39.
(** for [byte_text], beep/structure/biologic.py:174 *)
Definition hex (n : nat) : ascii := ascii_of_nat (if (n <? 10)%nat then 48 + n else 87 + n).
(** one byte in the text of bytes (for [bytes_str], beep/structure/biologic.py:174) *)
Definition byte_text (quote c : ascii) : string :=
  let n := nat_of_ascii c in
  if Ascii.eqb c bs || Ascii.eqb c quote then String bs (String c "")
  else if (n =? 9)%nat then String bs "t"
  else if (n =? 10)%nat then String bs "n"
  else if (n =? 13)%nat then String bs "r"
  else if (n <? 32)%nat || (127 <=? n)%nat then String bs (String "x" (String (hex (n / 16)) (String (hex (n mod 16)) "")))
  else String c "".
(** for [bytes_str], beep/structure/biologic.py:174 *)
Fixpoint bytes_text (quote : ascii) (s : string) : string :=
  match s with EmptyString => ""%string | String c r => (byte_text quote c ++ bytes_text quote r)%string end.
(** str() of a line of bytes (beep/structure/biologic.py:174, beep/structure/novonix.py:54) *)
Definition bytes_str (s : string) : string :=
  let q := if contains (String sq "") s && negb (contains (String dq "") s) then dq else sq in
  String "b" (String q (bytes_text q s ++ String q "")).

(** text.endswith(p) (for [clean_line], beep/structure/biologic.py:177-180) *)
Definition ends_with (p s : string) : bool :=
  (String.length p <=? String.length s)%nat && String.eqb (substring (String.length s - String.length p) (String.length p) s) p.
(** text[:-n] (for [clean_line], beep/structure/biologic.py:178-180) *)
Definition chop (n : nat) (s : string) : string := substring 0 (String.length s - n) s.
(** text[n:] (for [clean_line], beep/structure/biologic.py:176) *)
Definition drop (n : nat) (s : string) : string := substring n (String.length s - n) s.
(** the text "\r\n" of a line end (for [clean_line], beep/structure/biologic.py:179) *)
Definition crlf_text : string := String bs (String "r" (String bs "n")).
(** beep/structure/biologic.py:174-180 *)
Definition clean_line (b : string) : string :=
  let l := bytes_str b in
  let l := if prefix (String "b" (String sq "")) l then drop 2 l else l in
  let l := if ends_with (String sq "") l then chop 1 l else l in
  if ends_with crlf_text l then chop 4 l else l.

(** ** Metadata of Biologic files *)

(** beep/structure/biologic.py:162-169 *)
Record bstate := { b_channel : option Z; b_barcode : option string; b_protocol : option string;
                   b_started : bool; b_text : string }.
(** beep/structure/biologic.py:162-169 *)
Definition bstart : bstate := {| b_channel := None; b_barcode := None; b_protocol := None; b_started := false; b_text := "" |}.
Section BiologicMetadata.
  (** hashlib.md5(...).digest() (for [blank_after], beep/structure/biologic.py:201) *)
  Variable md5 : string -> string.
  (** beep/structure/biologic.py:183-185 *)
  Definition channel_of (pieces : list string) : result Z :=
    let! v := item pieces 1 in
    let! w := item (str_split " " v) 0 in
    match w with
    | EmptyString => Err IndexError
    | String c r => match parse_int (str_int (Z.of_nat (nat_of_ascii c) - 64) ++ r) with Some z => Ok z | None => Err ValueError end
    end.
  (** beep/structure/biologic.py:182-205, for a line without its end *)
  Definition meta_line (st : bstate) (line : string) : result bstate :=
    let pieces := str_split " : " (strip line) in
    let label := hd ""%string pieces in
    let! ch := if String.eqb label "Run on channel" then (let! z := channel_of pieces in Ok (Some z)) else Ok (b_channel st) in
    let bc := if contains "Comments" label then Some (last pieces ""%string) else b_barcode st in
    let here := contains "Cycle Definition" label in
    let started := b_started st || here in
    let text := if here then (b_text st ++ line ++ String nl "")%string else b_text st in
    if started
    then if String.eqb line ""
         then Ok {| b_channel := ch; b_barcode := bc; b_protocol := Some (md5 text); b_started := started; b_text := text |}
         else Ok {| b_channel := ch; b_barcode := bc; b_protocol := b_protocol st; b_started := started; b_text := (text ++ line ++ String nl "")%string |}
    else Ok {| b_channel := ch; b_barcode := bc; b_protocol := b_protocol st; b_started := started; b_text := text |}.
  (** beep/structure/biologic.py:207-209 *)
  Definition meta_done (st : bstate) : bool :=
    match b_channel st, b_barcode st, b_protocol st with Some _, Some _, Some _ => true | _, _, _ => false end.
  (** beep/structure/biologic.py:171-213; after the end of the file the lines are empty *)
  Fixpoint meta_loop (fuel : nat) (st : bstate) (lines : list string) : result bstate :=
    match fuel with
    | O => Ok st
    | S fuel' =>
        let! st := meta_line st (clean_line (match lines with [] => ""%string | l :: _ => l end)) in
        if meta_done st then Ok st else meta_loop fuel' st (tl lines)
    end.
  (** beep/structure/biologic.py:146-214 parse_metadata, on the lines of the file with their ends *)
  Definition biologic_metadata (lines : list string) : result bstate := meta_loop (Z.to_nat 10001) bstart lines.
End BiologicMetadata.

(** ** Times with fractions of seconds *)

(** [%f]: up to six digits, as millionths (for [strptime_us], beep/structure/biologic.py:128-129) *)
Definition millionths (s : string) : option Z :=
  match span_digits s with
  | (ds, EmptyString) =>
      if (1 <=? length ds)%nat && (length ds <=? 6)%nat then Some (digits_val (ds ++ repeat 0%nat (6 - length ds))) else None
  | _ => None
  end.
(** datetime.strptime(x, "%m/%d/%Y %H:%M:%S.%f") (beep/structure/biologic.py:128-135) *)
Definition strptime_us (x : string) : option (stamp * Z) :=
  match str_split "." x with
  | [a; f] => match strptime a, millionths f with Some st, Some us => Some (st, us) | _, _ => None end
  | _ => None
  end.
(** datetime.isoformat of an instant of UTC (beep/structure/biologic.py:128-129) *)
Definition isoformat_us (st : stamp) (us : Z) : string :=
  (isoformat_local st ++ (if (us =? 0)%Z then "" else "." ++ padded 6 us) ++ "+00:00")%string.
(** beep/structure/biologic.py:128-129 *)
Definition biologic_iso (dst : Z -> bool) (x : string) : result string :=
  match strptime_us x with
  | Some (st, us) => Ok (isoformat_us (plus_hours st (ahead dst (seconds st))) us)
  | None => Err ValueError
  end.
(** seconds of the clock, without regard to daylight saving time (for [biologic_test_time], beep/structure/biologic.py:131-135) *)
Definition clock_us (su : stamp * Z) : Z := (seconds (fst su) * 1000000 + snd su)%Z.
(** beep/structure/biologic.py:131-135: total_seconds since the first record *)
Definition biologic_test_time (xs : list string) : result (list Q) :=
  mapM (fun x => match strptime_us x, strptime_us (hd ""%string xs) with
                 | Some t, Some t0 => Ok (inject_Z (clock_us t - clock_us t0) / 1000000)
                 | _, _ => Err ValueError
                 end) xs.

(** ** Columns of Biologic files *)

(** for [biologic_columns], beep/structure/biologic.py:102-107 *)
Inductive btype := BInt | BFloat (scale : Q) | BText.
(** beep/conversion_schemas/biologic_conversion.yaml:5-36 data_columns *)
Definition biologic_columns : list (string * (string * btype)) :=
  [("cycle_index", ("cycle_index", BInt)); ("Ns", ("step_index", BInt)); ("Ecell/V", ("voltage", BFloat 1));
   ("I/mA", ("current", BFloat (1 # 1000))); ("Q discharge/mA.h", ("discharge_capacity", BFloat (1 # 1000)));
   ("Q charge/mA.h", ("charge_capacity", BFloat (1 # 1000))); ("Energy charge/W.h", ("charge_energy", BFloat 1));
   ("Energy discharge/W.h", ("discharge_energy", BFloat 1)); ("time/s", ("date_time", BText))]%string.
(** cells of the data (for [biologic_conv], beep/structure/biologic.py:96-108) *)
Inductive bval := BI (z : Z) | BF (q : Q) | BT (s : string).
(** int() of a number: towards zero (for [biologic_conv], beep/structure/biologic.py:105) *)
Definition truncate (q : Q) : Z := (Z.quot (Qnum q) (Zpos (Qden q)))%Z.
Section BiologicData.
  (** float() of a text (for [biologic_conv], beep/structure/biologic.py:104-107) *)
  Variable float_of : string -> option Q.
  (** get_cycle_index with the rules of a mapping file, C23 (for [biologic_data], beep/structure/biologic.py:112-116) *)
  Variable mapped : list bval -> option (list bval) -> result (list Z).
  (** beep/structure/biologic.py:98-107 *)
  Definition biologic_conv (column text : string) : result bval :=
    match match sget biologic_columns column with Some (_, ty) => ty | None => BText end with
    | BInt => match float_of text with Some q => Ok (BI (truncate q)) | None => Err ValueError end
    | BFloat k => match float_of text with Some q => Ok (BF (q * k)) | None => Err ValueError end
    | BText => Ok (BT text)
    end.
  (** raw[name] (for [biologic_data], beep/structure/biologic.py:111, 119-120) *)
  Definition raw_column (raw : list (string * list bval)) (k : string) : result (list bval) :=
    match sget raw k with Some c => Ok c | None => Err KeyError end.
  (** beep/structure/biologic.py:111 *)
  Definition whole_number (v : bval) : result bval :=
    match v with
    | BT s => match float_of s with Some q => Ok (BI (truncate q)) | None => Err ValueError end
    | BI z => Ok (BI z)
    | BF q => Ok (BI (truncate q))
    end.
  (** beep/structure/biologic.py:110-116 *)
  Definition with_cycles (mapping : bool) (columns : list string) (raw : list (string * list bval)) : result (list (string * list bval)) :=
    if existsb (String.eqb "cycle_index") columns then Ok raw
    else if mapping
    then let! ns := raw_column raw "Ns" in
         let! c := mapped ns (sget raw "Loop") in Ok (sset raw "cycle_index" (map BI c))
    else let! c := raw_column raw "cycle number" in
         let! c := mapM whole_number c in Ok (sset raw "cycle_index" c).
  (** beep/structure/biologic.py:118-123: the table; DataFrame refuses columns of different lengths *)
  Definition biologic_data (mapping : bool) (columns : list string) (raw : list (string * list bval)) : result (list (string * list bval)) :=
    let! raw := with_cycles mapping columns raw in
    let! data := mapM (fun kc => let! c := raw_column raw (fst kc) in Ok (fst (snd kc), c)) biologic_columns in
    let! n := raw_column raw "cycle number" in
    let data := data ++ [("data_point"%string, map (fun i => BI (Z.of_nat i)) (seq 1 (length n)))] in
    if forallb (fun kc => (length (snd kc) =? length n)%nat) data then Ok data else Err ValueError.
  (** beep/structure/biologic.py:61-123: the lines of the file, with their ends *)
  Definition biologic_table (mapping : bool) (ext : string) (lines : list string) : result (list (string * list bval)) :=
    let! t := get_file_type ext 200 lines in
    let '(sep, h, _) := t in
    let columns := str_split sep (nth (h - 1) lines ""%string) in
    let! raw := read_table biologic_conv columns (map (str_split sep) (skipn h lines)) in
    biologic_data mapping columns raw.
End BiologicData.
(** beep/structure/biologic.py:124 *)
Definition biologic_metadata_path (path : string) : string := replace_text ".csv" ".mpl" path.

(** ** Novonix files *)

(** beep/conversion_schemas/novonix_conversion.yaml metadata_fields *)
Definition novonix_fields : list (string * string) :=
  [("channel", "Channel"); ("cell", "Cell"); ("barcode", "Serial Number"); ("description", "Description");
   ("protocol", "Protocol"); ("mass", "Mass"); ("nominal_capacity", "Capacity"); ("area", "Area");
   ("offset_voltage_dc", "DC Offset Voltage"); ("software_version", "Version")]%string.
(** beep/structure/novonix.py:58-60 *)
Definition novonix_value (l : string) : string :=
  replace_text (String sq "") "" (replace_text (String bs "n") "" (strip (last (str_split ":" l) ""%string))).
(** beep/structure/novonix.py:53-62: the first phrase that occurs decides *)
Definition summary_line (meta : list (string * option string)) (b : string) : list (string * option string) :=
  let l := bytes_str b in
  match find (fun kp => contains (snd kp) l) novonix_fields with
  | Some (k, _) => let v := novonix_value l in sset meta k (if String.eqb v "" then None else Some v)
  | None => meta
  end.
(** beep/structure/novonix.py:43-62: one line of the search *)
Definition novonix_flags (flags : bool * bool) (line : string) : bool * bool :=
  if contains "Cycle Number" line then flags
  else if contains "[Summary]" line then (true, snd flags)
  else if contains "[End Summary]" line then (fst flags, true)
  else flags.
(** beep/structure/novonix.py:43-66, up to the header line *)
Fixpoint novonix_scan (flags : bool * bool) (meta : list (string * option string)) (lines : list string) : list (string * option string) :=
  match lines with
  | [] => meta
  | b :: r =>
      let flags := novonix_flags flags b in
      let meta := if fst flags && negb (snd flags) then summary_line meta b else meta in
      novonix_scan flags meta r
  end.
(** beep/structure/novonix.py:30-66 *)
Definition novonix_metadata (lines : list string) : result (list (string * option string) * nat) :=
  let! h := novonix_find_header lines in
  Ok (novonix_scan (false, false) (map (fun kp => (fst kp, None)) novonix_fields) (firstn h lines), h).

(** the lines pd.read_csv makes rows of, for files without tabs; the line ends are cut off
    (beep/structure/novonix.py:67-68) *)
Definition csv_lines (lines : list string) : list string := filter (fun l => negb (only_blanks l)) lines.
(** cells beyond the end of a short row are missing (for [novonix_frame], beep/structure/novonix.py:70) *)
Definition novonix_cells (width : nat) (l : string) : list (option string) :=
  let cs := str_split "," l in map Some cs ++ repeat None (width - length cs).
(** beep/structure/novonix.py:67-72: the header and the rows below it.  [h] is the number of the header line in the file.  *)
Definition novonix_frame (h : nat) (lines : list string) : result (list (option string) * list (list (option string))) :=
  let rows := skipn (h - 1) (csv_lines lines) in
  let width := fold_right Nat.max 0%nat (map (fun l => length (str_split "," l)) rows) in
  match map (novonix_cells width) rows with
  | [] => Err IndexError
  | header :: body => Ok (header, body)
  end.

(** [%I] and [%p] (for [strptime_novonix], beep/structure/novonix.py:124-127) *)
Definition hour12 (h : Z) (p : string) : option Z :=
  if String.eqb (lower p) "am" then Some (if (h =? 12)%Z then 0%Z else h)
  else if String.eqb (lower p) "pm" then Some (if (h =? 12)%Z then 12%Z else (h + 12)%Z)
  else None.
(** datetime.strptime with '%Y-%m-%d %I:%M:%S %p', or '%m/%d/%Y %I:%M:%S %p' when [us] holds; with single blanks between
    the parts (beep/structure/novonix.py:124-130) *)
Definition strptime_novonix (us : bool) (x : string) : option stamp :=
  match str_split " " x with
  | [d; t; p] =>
      match (if us then match str_split "/" d with [m; dd; y] => Some (y, m, dd) | _ => None end
             else match str_split "-" d with [y; m; dd] => Some (y, m, dd) | _ => None end), str_split ":" t with
      | Some (y, m, dd), [h; n; s] =>
          match year_only y, field 1 12 m, field 1 31 dd, field 1 12 h, field 0 59 n, field 0 61 s with
          | Some y, Some m, Some dd, Some h, Some n, Some s =>
              match hour12 h p with
              | Some h => if (1 <=? y)%Z && (dd <=? days_in_month y m)%Z && (s <=? 59)%Z
                          then Some {| yr := y; mo := m; dy := dd; hh := h; mi := n; ss := s |} else None
              | None => None
              end
          | _, _, _, _, _, _ => None
          end
      | _, _ => None
      end
  | _ => None
  end.
(** beep/structure/novonix.py:129-130: one format for a whole column *)
Definition novonix_dates (us : bool) (xs : list string) : option (list string) :=
  match mapM (fun x => match strptime_novonix us x with Some st => Ok (isoformat_local st) | None => Err ValueError end) xs with
  | Ok l => Some l
  | Err _ => None
  end.
(** beep/structure/novonix.py:122-136: both formats are tried, a later success replaces an earlier one *)
Definition novonix_iso (xs : list string) : result (list string) :=
  match novonix_dates false xs, novonix_dates true xs with
  | _, Some l => Ok l
  | Some l, None => Ok l
  | None, None => Err ValueError
  end.
