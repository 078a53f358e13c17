(** Model of the files of MaccorSplice (beep/utils/splice.py:34-123).
    Simplifications: files are ASCII texts without carriage returns and quotation marks; the labels of columns are distinct;
    how pd.read_csv makes a value of a text and DataFrame.to_csv a text of a value is a parameter, applied to
    every cell by itself.  A line longer than the header is refused.  Words in the first row of the second or the last row
    of the first file in the columns to be updated are refused (pandas would compare two words and join them). *)
From Verif Require Import Py Num Model_Arbin Model_Readers Model_RawFile.

(** a cell of a frame (for [read_tsv], beep/utils/splice.py:54) *)
Inductive cell : Type := Missing | Number (q : Q) | Word (s : string).
(** labels and rows (for [read_tsv], beep/utils/splice.py:54) *)
Definition frame : Type := list string * list (list cell).
(** a tab (for [read_tsv], beep/utils/splice.py:54, 69) *)
Definition tab : string := String (ascii_of_nat 9) "".
(** a line end (for [file_lines], beep/utils/splice.py:48, 53) *)
Definition newline : string := String nl "".
(** f.readlines(): the line ends stay (beep/utils/splice.py:47-48) *)
Fixpoint file_lines (s : string) : list string :=
  match s with
  | EmptyString => []
  | String c r => if Ascii.eqb c nl then newline :: file_lines r
                  else match file_lines r with [] => [String c ""] | l :: ls => String c l :: ls end
  end.
(** the position of a label (for [increment_one], beep/utils/splice.py:93-94) *)
Fixpoint position (c : string) (labels : list string) : option nat :=
  match labels with [] => None | l :: r => if String.eqb l c then Some 0%nat else option_map S (position c r) end.
(** a cell is replaced (for [increment_one], beep/utils/splice.py:94) *)
Fixpoint alter (j : nat) (f : cell -> cell) (row : list cell) : list cell :=
  match row, j with
  | [], _ => []
  | v :: r, O => f v :: r
  | v :: r, S k => v :: alter k f r
  end.
(** v + y (for [increment_one], beep/utils/splice.py:94) *)
Definition plus (y : Q) (v : cell) : cell := match v with Number x => Number (x + y) | v => v end.
(** what is added to a column, by its first value in the second and its last one in the first file; comparisons with a missing value are false (beep/utils/splice.py:93) *)
Definition to_add (a b : cell) : result (option Q) :=
  match a, b with
  | Number x, Number y => Ok (if Qlt_bool x y then Some y else None)
  | Word _, _ | _, Word _ => Err TypeError
  | _, _ => Ok None
  end.
(** beep/utils/splice.py:92-94, one column *)
Definition increment_one (d1 d2 : frame) (c : string) : result frame :=
  match position c (fst d2), position c (fst d1) with
  | Some j, Some i =>
      match hd_error (snd d2), last_error (snd d1) with
      | Some r2, Some r1 =>
          match nth_error r2 j, nth_error r1 i with
          | Some a, Some b => let! o := to_add a b in Ok (match o with Some y => (fst d2, map (alter j (plus y)) (snd d2)) | None => d2 end)
          | _, _ => Err IndexError
          end
      | _, _ => Err IndexError
      end
  | _, _ => Err KeyError
  end.
(** beep/utils/splice.py:71-96 column_increment *)
Fixpoint increments (d1 d2 : frame) (cs : list string) : result frame :=
  match cs with [] => Ok d2 | c :: r => let! d := increment_one d1 d2 c in increments d1 d r end.
(** a value by label (for [stack], beep/utils/splice.py:110) *)
Fixpoint by_label (labels : list string) (row : list cell) (c : string) : cell :=
  match labels, row with l :: ls, v :: vs => if String.eqb l c then v else by_label ls vs c | _, _ => Missing end.
(** pd.concat: the labels of both, those of the first one first (beep/utils/splice.py:98-111 splice_operation) *)
Definition stack (a b : frame) : frame :=
  let labels := fst a ++ filter (fun c => negb (str_in c (fst a))) (fst b) in
  (labels, map (fun r => map (by_label (fst a) r) labels) (snd a) ++ map (fun r => map (by_label (fst b) r) labels) (snd b)).

Section SpliceFile.
  (** the value read for a text, the text written for a value (for [read_tsv], beep/utils/splice.py:54, 69) *)
  Variable value : string -> cell.
  Variable text : cell -> string.
  (** for [read_tsv], beep/utils/splice.py:54 *)
  Definition cells_of (width : nat) (line : string) : result (list cell) :=
    let cs := map value (str_split tab line) in
    if (length cs <=? width)%nat then Ok (cs ++ repeat Missing (width - length cs)) else Err (OtherError "ParserError").
  (** pd.read_csv(text, delimiter="\t") (beep/utils/splice.py:54) *)
  Definition read_tsv (s : string) : result frame :=
    match filter (fun l => negb (only_blanks l)) (str_split newline s) with
    | [] => Err (OtherError "EmptyDataError")
    | h :: ls => let labels := str_split tab h in let! rows := mapM (cells_of (length labels)) ls in Ok (labels, rows)
    end.
  (** beep/utils/splice.py:34-55 read_maccor_file *)
  Definition read_maccor_file (content : string) : result (string * frame) :=
    match file_lines content with
    | [] => Err IndexError
    | meta :: rest => let! d := read_tsv (join newline rest) in Ok (meta, d)
    end.
  (** beep/utils/splice.py:57-69 write_maccor_file: the content of the file *)
  Definition write_maccor_file (meta : string) (d : frame) : string :=
    (meta ++ String.concat "" (map (fun l => join tab l ++ newline) (fst d :: map (map text) (snd d))))%string.
  (** beep/utils/splice.py:113-123 run_splice *)
  Definition run_splice (content1 content2 : string) : result string :=
    let! f1 := read_maccor_file content1 in
    let! f2 := read_maccor_file content2 in
    let! d2 := increments (snd f1) (snd f2) columns_to_update in
    Ok (write_maccor_file (fst f1) (stack (snd f1) d2)).
End SpliceFile.
