(** Model of Maccor procedure files: beep/protocol/maccor.py:42-161, Procedure.from_file, _format_maccor and to_file,
    with what they use of xmltodict (parse, unparse) and of the XML parser and writer below it.
    Simplifications: elements have no attributes; ASCII characters; no comments, CDATA sections, document types and
    character references by number, which the parser below refuses; every error of the XML parser is one exception. *)
From Verif Require Import Py Model_Arbin Model_Procedure.

(** beep/protocol/maccor.py:73-107, str.center: the odd blank goes to the left only if the width is odd too *)
Fixpoint blank (n : nat) : string := match n with O => EmptyString | S n => String " " (blank n) end.
(** beep/protocol/maccor.py:73-107, str.center *)
Definition center (w : nat) (s : string) : string :=
  let pad := (w - String.length s)%nat in
  let left := (pad / 2 + (if Nat.odd pad && Nat.odd w then 1 else 0))%nat in
  (blank left ++ s ++ blank (pad - left))%string.
(** beep/protocol/maccor.py:107, str.ljust *)
Definition ljust (w : nat) (s : string) : string := (s ++ blank (w - String.length s))%string.
(** beep/protocol/maccor.py:74-75, 78-79, 102-103, 112-113: while len(x) < 8: x = x.center(8).
    The loop turns at most once: a centred text has the width asked for. *)
Definition pad8 (v : val) : result val :=
  match v with
  | VText s => Ok (VText (if (String.length s <? 8)%nat then center 8 s else s))
  | VDict d => if (length d <? 8)%nat then Err AttributeError else Ok v
  | VList l => if (length l <? 8)%nat then Err AttributeError else Ok v
  | VNone | VNum _ => Err TypeError
  end.
(** beep/protocol/maccor.py:76-77, 100-101: if x is None: x = " " *)
Definition none_blank (v : val) : val := match v with VNone => VText " " | _ => v end.
(** beep/protocol/maccor.py:104-108 *)
Definition pad_oper (v : val) : result val :=
  match v with
  | VNone => Ok VNone
  | VText s => Ok (VText (if (String.length s <? 2)%nat then center 3 s else ljust 3 s))
  | VDict _ | VList _ => Err AttributeError
  | VNum _ => Err TypeError
  end.
(** entry[k] = f(entry[k]) (for [ends_whitespace], beep/protocol/maccor.py:99-108) *)
Definition update (k : string) (f : val -> result val) (v : val) : result val :=
  let! x := get1 (K k) v in
  let! y := f x in
  match v with VDict d => Ok (VDict (sset d k y)) | _ => Err TypeError end.
(** beep/protocol/maccor.py:99-108 ends_whitespace *)
Definition ends_whitespace (e : val) : result val :=
  let! e := update "SpecialType" (fun v => Ok (none_blank v)) e in
  let! e := update "EndType" pad8 e in
  update "Oper" pad_oper e.
(** beep/protocol/maccor.py:111-113 reports_whitespace *)
Definition reports_whitespace (e : val) : result val := update "ReportType" pad8 e.
(** beep/protocol/maccor.py:80-94: nothing for None, each entry of a list, a single entry; other values are left *)
Definition entries (k : string) (f : val -> result val) (v : val) : result val :=
  match v with
  | VNone => Ok VNone
  | _ => update k (fun x => match x with
                            | VList l => let! l' := mapM f l in Ok (VList l')
                            | VDict _ => f x
                            | _ => Ok x
                            end) v
  end.
(** beep/protocol/maccor.py:72-94, the body of the loop *)
Definition format_step (s : val) : result val :=
  let! s := update "StepType" pad8 s in
  let! s := update "StepMode" (fun v => pad8 (none_blank v)) s in
  let! s := update "Ends" (entries "EndEntry" ends_whitespace) s in
  update "Reports" (entries "ReportEntry" reports_whitespace) s.
(** beep/protocol/maccor.py:72: iterating over a dictionary yields its keys and over a text its characters,
    none of which has fields *)
Definition format_steps (v : val) : result val :=
  match v with
  | VList l => let! l' := mapM format_step l in Ok (VList l')
  | VDict [] | VText EmptyString => Ok v
  | VDict _ | VText _ | VNone | VNum _ => Err TypeError
  end.
(** beep/protocol/maccor.py:61-96 _format_maccor.  Simplification: no value is shared between two places. *)
Definition format_maccor (p : val) : result val :=
  update "MaccorTestProcedure" (update "ProcSteps" (update "TestStep" format_steps)) p.

(** beep/protocol/maccor.py:127-135, xml.sax.saxutils.escape *)
Fixpoint escape (s : string) : string :=
  match s with
  | EmptyString => EmptyString
  | String c r =>
      ((if Ascii.eqb c "&" then "&amp;" else if Ascii.eqb c "<" then "&lt;" else if Ascii.eqb c ">" then "&gt;"
        else String c "") ++ escape r)%string
  end.
(** beep/protocol/maccor.py:127-135, indent="  " *)
Definition indent (depth : nat) : string := blank (2 * depth).
(** beep/protocol/maccor.py:127-135, one element of xmltodict.unparse(pretty=True, short_empty_elements=False) *)
Definition element (depth : nat) (key body : string) : string :=
  (indent depth ++ "<" ++ key ++ ">" ++ body ++ "</" ++ key ++ ">" ++ (if (depth =? 0)%nat then "" else String nl ""))%string.

Section Write.
  (** beep/protocol/maccor.py:127-135, str() of numbers, and of a list inside a list *)
  Variable show : val -> string.

  (** beep/protocol/maccor.py:127-135, xmltodict.unparse below one key.  Simplification: keys "#text" and
      keys that begin with "@", which stand for text beside elements and attributes, are written as elements. *)
  Fixpoint emit (depth : nat) (key : string) (v : val) {struct v} : string :=
    element depth key
      match v with
      | VNone => ""
      | VText s => escape s
      | VNum _ | VList _ => escape (show v)
      | VDict d =>
          let children := map (fun kv : string * val => let (k, w) := kv in
                                         match w with
                                         | VList l => String.concat "" (map (emit (S depth) k) l)
                                         | _ => emit (S depth) k w
                                         end) d in
          match d with
          | [] => ""
          | _ => (String nl "" ++ String.concat "" children ++ indent depth)%string
          end
      end.
  (** beep/protocol/maccor.py:127-135 *)
  Definition declaration : string := "<?xml version=""1.0"" encoding=""UTF-8""?>"%string.
  (** beep/protocol/maccor.py:127-135, xmltodict.unparse: exactly one root *)
  Definition unparse (p : val) : result string :=
    match p with
    | VDict [(k, v)] =>
        match v with
        | VList [] => Ok (declaration ++ String nl "")%string
        | VList [w] => Ok (declaration ++ String nl "" ++ emit 0 k w)%string
        | VList _ => Err ValueError
        | _ => Ok (declaration ++ String nl "" ++ emit 0 k v)%string
        end
    | VDict _ => Err ValueError
    | _ => Err TypeError
    end.
  (** beep/protocol/maccor.py:139 *)
  Definition instruction : string := "<?maccor-application progid=""Maccor Procedure File""?>"%string.
  (** beep/protocol/maccor.py:138, s.split("\n", 1): None if there is no line end *)
  Fixpoint split_line (s : string) : option (string * string) :=
    match s with
    | EmptyString => None
    | String c r => if Ascii.eqb c nl then Some (EmptyString, r)
                    else match split_line r with Some (a, b) => Some (String c a, b) | None => None end
    end.
  (** beep/protocol/maccor.py:158-160, s.replace(old, new) *)
  Fixpoint replace_from (old new s : string) (skip : nat) : string :=
    match s with
    | EmptyString => EmptyString
    | String c r =>
        match skip with
        | S k => replace_from old new r k
        | O => if prefix old s then (new ++ replace_from old new r (String.length old - 1))%string
               else String c (replace_from old new r 0)
        end
    end.
  (** beep/protocol/maccor.py:158-160 *)
  Definition replace (old new s : string) : string := replace_from old new s 0.
  (** beep/protocol/maccor.py:147-161 fixup_empty_elements *)
  Definition fixup_empty_elements (s : string) : string :=
    let s := replace "<Limits></Limits>" "<Limits/>" s in
    let s := replace "<Reports></Reports>" "<Reports/>" s in
    replace "<Ends></Ends>" "<Ends/>" s.
  (** beep/protocol/maccor.py:115-144 to_file: the text written.  Simplification: line ends are not translated. *)
  Definition to_file (p : val) : result string :=
    let! f := format_maccor p in
    let! contents := unparse f in
    match split_line contents with
    | None => Err ValueError
    | Some (line0, remainder) =>
        Ok (fixup_empty_elements (line0 ++ String nl "" ++ instruction ++ String nl "" ++ remainder) ++ String nl "")%string
    end.
End Write.

(** Reading *)
(** beep/protocol/maccor.py:55-57, the exception of the XML parser *)
Definition expat : exn := OtherError "ExpatError".
(** beep/protocol/maccor.py:57, what the XML parser reports *)
Inductive token := Open (name : string) | Close (name : string) | Chars (s : string).
(** beep/protocol/maccor.py:57, the line ends of XML: carriage returns become line feeds *)
Fixpoint line_ends (s : string) : string :=
  match s with
  | EmptyString => EmptyString
  | String c r =>
      if Ascii.eqb c cr
      then match r with
           | String d _ => if Ascii.eqb d nl then line_ends r else String nl (line_ends r)
           | EmptyString => String nl ""
           end
      else String c (line_ends r)
  end.
(** beep/protocol/maccor.py:57, the characters XML allows *)
Definition xml_char (c : ascii) : bool := (32 <=? nat_of_ascii c)%nat || Ascii.eqb c (ascii_of_nat 9) || Ascii.eqb c nl || Ascii.eqb c cr.
(** beep/protocol/maccor.py:57, names of elements *)
Definition name_start (c : ascii) : bool :=
  let n := nat_of_ascii c in ((65 <=? n)%nat && (n <=? 90)%nat) || ((97 <=? n)%nat && (n <=? 122)%nat) || Ascii.eqb c "_" || Ascii.eqb c ":".
(** beep/protocol/maccor.py:57, names of elements *)
Definition name_char (c : ascii) : bool :=
  let n := nat_of_ascii c in name_start c || ((48 <=? n)%nat && (n <=? 57)%nat) || Ascii.eqb c "-" || Ascii.eqb c ".".
(** beep/protocol/maccor.py:57, names of elements *)
Definition xml_name (s : string) : bool :=
  match s with EmptyString => false | String c r => name_start c && forallb name_char (list_ascii_of_string r) end.
(** beep/protocol/maccor.py:57, the five entities every XML text may use; [skip] counts the characters of
    a reference still to be dropped *)
Definition references : list (string * ascii) :=
  [("&amp;", "&"%char); ("&lt;", "<"%char); ("&gt;", ">"%char); ("&quot;", ascii_of_nat 34); ("&apos;", "'"%char)]%string.
(** for [unescape], beep/protocol/maccor.py:57 *)
Definition reference (s : string) : option (string * ascii) := find (fun r => prefix (fst r) s) references.
(** beep/protocol/maccor.py:57, character data *)
Fixpoint unescape (s : string) (skip : nat) : result string :=
  match s with
  | EmptyString => Ok EmptyString
  | String c r =>
      match skip with
      | S k => unescape r k
      | O =>
          if negb (xml_char c) then Err expat
          else if Ascii.eqb c "&"
          then match reference s with
               | Some (name, d) => let! t := unescape r (String.length name - 1) in Ok (String d t)
               | None => Err expat
               end
          else let! t := unescape r 0 in Ok (String c t)
      end
  end.
(** for [lex], beep/protocol/maccor.py:57 *)
Definition chars (s : string) : result (list token) :=
  match s with EmptyString => Ok [] | _ => let! t := unescape s 0 in Ok [Chars t] end.
(** for [tag], beep/protocol/maccor.py:57 *)
Fixpoint split_last (s : string) : option (string * ascii) :=
  match s with
  | EmptyString => None
  | String c r => match split_last r with Some (t, d) => Some (String c t, d) | None => Some (EmptyString, c) end
  end.
(** beep/protocol/maccor.py:57, what stands between < and >.  Processing instructions, and the declaration, are passed over. *)
Definition tag (s : string) : result (list token) :=
  match s with
  | EmptyString => Err expat
  | String c r =>
      if Ascii.eqb c "?" then match split_last r with Some (_, d) => if Ascii.eqb d "?" then Ok [] else Err expat | None => Err expat end
      else if Ascii.eqb c "/" then if xml_name r then Ok [Close r] else Err expat
      else match split_last s with
           | Some (n, d) => if Ascii.eqb d "/" then if xml_name n then Ok [Open n; Close n] else Err expat
                            else if xml_name s then Ok [Open s] else Err expat
           | None => Err expat
           end
  end.
(** beep/protocol/maccor.py:57: [acc] is what was read of the current tag or text.
    Simplification: processing instructions contain no < and no >. *)
Fixpoint lex (s acc : string) (in_tag : bool) : result (list token) :=
  match s with
  | EmptyString => if in_tag then Err expat else chars acc
  | String c r =>
      if in_tag
      then if Ascii.eqb c "<" then Err expat
           else if Ascii.eqb c ">" then let! t := tag acc in let! ts := lex r "" false in Ok (t ++ ts)
           else lex r (acc ++ String c "")%string true
      else if Ascii.eqb c "<" then let! t := chars acc in let! ts := lex r "" true in Ok (t ++ ts)
           else lex r (acc ++ String c "")%string false
  end.
(** beep/protocol/maccor.py:57, xmltodict's push_data: a repeated element makes a list *)
Definition push_data (item : option (list (string * val))) (k : string) (v : val) : option (list (string * val)) :=
  let d := match item with Some d => d | None => [] end in
  Some match sget d k with
       | Some (VList l) => sset d k (VList (l ++ [v]))
       | Some w => sset d k (VList [w; v])
       | None => sset d k v
       end.
(** beep/protocol/maccor.py:57, xmltodict's endElement with strip_whitespace=True: text alone is the value, text beside
    elements is stored under "#text", an empty element is None *)
Definition finished (item : option (list (string * val))) (data : string) : val :=
  let t := strip data in
  match item with
  | None => match t with EmptyString => VNone | _ => VText t end
  | Some d => match t with
              | EmptyString => VDict d
              | _ => match push_data item "#text" (VText t) with Some d' => VDict d' | None => VDict d end
              end
  end.
(** beep/protocol/maccor.py:57, xmltodict's handler: the open elements with what was read of the elements around them *)
Fixpoint handle (ts : list token) (stack : list (string * option (list (string * val)) * string))
    (item : option (list (string * val))) (data : string) : result val :=
  match ts with
  | [] => match stack, item with [], Some d => Ok (VDict d) | _, _ => Err expat end
  | Chars s :: r =>
      match stack with
      | [] => match strip s with EmptyString => handle r stack item data | _ => Err expat end
      | _ => handle r stack item (data ++ s)%string
      end
  | Open n :: r =>
      match stack, item with
      | [], Some _ => Err expat
      | _, _ => handle r ((n, item, data) :: stack) None ""
      end
  | Close n :: r =>
      match stack with
      | [] => Err expat
      | (m, item0, data0) :: st =>
          if String.eqb n m then handle r st (push_data item0 n (finished item data)) data0 else Err expat
      end
  end.
(** beep/protocol/maccor.py:42-58 from_file *)
Definition from_file (text : string) : result val :=
  let! ts := lex (line_ends text) "" false in handle ts [] None "".
