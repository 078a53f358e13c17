(** Model of beep/structure/validate.py (SimpleValidator). *)
From Verif Require Import Py Num.

(** A pandas column: its numpy dtype and its cells.
    Simplification: cells are NaN/rational or string; infinities are absent.
    (for [column], beep/structure/validate.py:138, 151, 159) *)
Inductive dtype := DFloat | DInt | DObject | DOther.
(** for [column], beep/structure/validate.py:138, 151, 159 *)
Inductive cell := CNum (x : num) | CStr (s : string).
(** for [frame], beep/structure/validate.py:138, 151, 159 *)
Record column := { c_dtype : dtype; c_cells : list cell }.
(** A data frame as the validator sees it: named columns. (for [get_column], beep/structure/validate.py:138, 151, 159) *)
Definition frame := list (string * column).

(** beep/structure/validate.py:141-146 – the rules read from one column's schema. *)
Record rules := {
  r_type : option string;
  r_max : option Q;
  r_min : option Q;
  r_max_at_least : option Q;
  r_min_is_below : option Q;
  r_monotonic : option string }.
(** beep/structure/validate.py:124-213 validate *)
Definition schema := list (string * rules).

(** beep/structure/validate.py:97-121 – the reason returned by check_type. *)
Inductive type_reason :=
| NotInteger (index : nat) (value : num)     (* 97-104 *)
| NotFloat (d : dtype)                       (* 107-108 *)
| NotNumber (d : dtype)                      (* 112-113 *)
| NotString (d : dtype).                     (* 117-121 *)

(** beep/structure/validate.py:154-210 – the data printed in each rejection message. *)
Inductive reason :=
| RType (col : string) (r : type_reason)                            (* 154 *)
| RMax (col : string) (rule : Q) (index : nat) (value : num)        (* 163-166 *)
| RMin (col : string) (rule : Q) (index : nat) (value : num)        (* 175-178 *)
| RMaxAtLeast (col : string) (rule : Q) (value : cell)              (* 187-190 *)
| RMinBelow (col : string) (printed_rule : option Q) (value : cell) (* 199-202 *)
| RMonotonic (col : string).                                        (* 208-210 *)

(** beep/structure/validate.py:138, 151, 159, … – [dataframe[column_name]] after all column
    names were lower-cased.  Two columns with the same lower-cased name make
    pandas return a frame instead of a series; the model reports that as an
    explicit error (simplification). *)
Definition get_column (f : frame) (c : string) : result column :=
  match filter (fun nc => String.eqb (lower (fst nc)) c) f with
  | [] => Err KeyError
  | [(_, col)] => Ok col
  | _ => Err (OtherError "ambiguous column")
  end.

(** np.round(q) == q for a rational. (for [non_integer], beep/structure/validate.py:96) *)
Definition is_integer (q : Q) : bool := Qeq_bool (inject_Z (Qfloor q)) q.

(** First index (from [i]) whose cell satisfies [bad]; a string cell compared
    with a number raises TypeError anywhere in the column. (for [check_type], beep/structure/validate.py:74-122) *)
Fixpoint nums_of (l : list cell) : result (list num) :=
  match l with
  | [] => Ok []
  | CNum x :: r => let! xs := nums_of r in Ok (x :: xs)
  | CStr _ :: _ => Err TypeError
  end.
(** for [check_type], beep/structure/validate.py:74-122 *)
Fixpoint first_bad (bad : num -> bool) (i : nat) (l : list num) : option (nat * num) :=
  match l with
  | [] => None
  | x :: r => if bad x then Some (i, x) else first_bad bad (S i) r
  end.

(** beep/structure/validate.py:96: [df != np.round(df)], NaN differs from itself. *)
Definition non_integer (x : num) : bool :=
  match x with None => true | Some q => negb (is_integer q) end.

(** beep/structure/validate.py:74-122 check_type: [Ok None] is (True, ""). *)
Definition check_type (c : column) (type_rule : string) : result (option type_reason) :=
  if negb (str_in type_rule ["integer"; "float"; "numeric"; "string"]%string)
  then Err ValueError                                              (* 89-93 *)
  else if String.eqb type_rule "integer" then                      (* 95-104 *)
    match c_dtype c, c_cells c with
    | DObject, _ :: _ => Err TypeError        (* np.round on an object array *)
    | _, _ =>
        let! xs := nums_of (c_cells c) in
        match first_bad non_integer 0 xs with
        | Some (i, v) => Ok (Some (NotInteger i v))
        | None => Ok None
        end
    end
  else if String.eqb type_rule "float" then                        (* 106-108 *)
    match c_dtype c with DFloat => Ok None | d => Ok (Some (NotFloat d)) end
  else if String.eqb type_rule "numeric" then                      (* 111-113 *)
    match c_dtype c with DFloat | DInt => Ok None | d => Ok (Some (NotNumber d)) end
  else                                                             (* 116-121 *)
    match c_dtype c with DObject => Ok None | d => Ok (Some (NotString d)) end.

(** beep/structure/validate.py:206-207: some difference of consecutive values is negative
    (NaN differences are dropped). *)
Fixpoint has_decrease (l : list num) : bool :=
  match l with
  | a :: ((b :: _) as r) =>
      match a, b with
      | Some x, Some y => Qlt_bool y x || has_decrease r
      | _, _ => has_decrease r
      end
  | _ => false
  end.

(** Continue with the next check only if this one passed. (for [validate_column], beep/structure/validate.py:139-211) *)
Definition and_then (a : result (option reason)) (b : result (option reason))
  : result (option reason) :=
  match a with Ok None => b | _ => a end.

(** beep/structure/validate.py:149-155 *)
Definition do_type (f : frame) (c : string) (r : rules) : result (option reason) :=
  match r_type r with
  | None => Ok None
  | Some t => let! col := get_column f c in
              let! res := check_type col t in
              Ok (option_map (RType c) res)
  end.
(** beep/structure/validate.py:158-167 *)
Definition do_max (f : frame) (c : string) (r : rules) : result (option reason) :=
  match r_max r with
  | None => Ok None
  | Some m => let! col := get_column f c in
              let! xs := nums_of (c_cells col) in
              match first_bad (fun x => match x with Some q => Qlt_bool m q | None => false end) 0 xs with
              | Some (i, v) => Ok (Some (RMax c m i v))
              | None => Ok None
              end
  end.
(** beep/structure/validate.py:170-179 *)
Definition do_min (f : frame) (c : string) (r : rules) : result (option reason) :=
  match r_min r with
  | None => Ok None
  | Some m => let! col := get_column f c in
              let! xs := nums_of (c_cells col) in
              match first_bad (fun x => match x with Some q => Qlt_bool q m | None => false end) 0 xs with
              | Some (i, v) => Ok (Some (RMin c m i v))
              | None => Ok None
              end
  end.
(** [comp[0][0]] is always 0 for a scalar comparison, so the reported value is
    the first cell of the column (beep/structure/validate.py:185-186, 197-198). *)
Definition first_cell (col : column) : result cell :=
  match c_cells col with [] => Err IndexError | x :: _ => Ok x end.
(** beep/structure/validate.py:182-191 *)
Definition do_max_at_least (f : frame) (c : string) (r : rules) : result (option reason) :=
  match r_max_at_least r with
  | None => Ok None
  | Some m => let! col := get_column f c in
              let! xs := nums_of (c_cells col) in
              match col_max xs with
              | Some q => if Qlt_bool q m
                          then let! v := first_cell col in Ok (Some (RMaxAtLeast c m v))
                          else Ok None
              | None => Ok None
              end
  end.
(** beep/structure/validate.py:194-203; note that the message prints max_at_least_rule (201). *)
Definition do_min_is_below (f : frame) (c : string) (r : rules) : result (option reason) :=
  match r_min_is_below r with
  | None => Ok None
  | Some m => let! col := get_column f c in
              let! xs := nums_of (c_cells col) in
              match col_min xs with
              | Some q => if Qlt_bool m q
                          then let! v := first_cell col in Ok (Some (RMinBelow c (r_max_at_least r) v))
                          else Ok None
              | None => Ok None
              end
  end.
(** beep/structure/validate.py:205-211; the difference of a string column raises TypeError
    as soon as there are two rows. *)
Definition do_monotonic (f : frame) (c : string) (r : rules) : result (option reason) :=
  match r_monotonic r with
  | Some m =>
      if String.eqb m "increasing" then
        let! col := get_column f c in
        match c_cells col with
        | [] | [_] => Ok None
        | cells => let! xs := nums_of cells in
                   if has_decrease xs then Ok (Some (RMonotonic c)) else Ok None
        end
      else Ok None
  | None => Ok None
  end.

(** beep/structure/validate.py:139-211: the body of the loop over the schema. *)
Definition validate_column (f : frame) (c : string) (r : rules) : result (option reason) :=
  and_then (do_type f c r)
  (and_then (do_max f c r)
  (and_then (do_min f c r)
  (and_then (do_max_at_least f c r)
  (and_then (do_min_is_below f c r) (do_monotonic f c r))))).

(** beep/structure/validate.py:124-213: [Ok None] is (True, ""), [Ok (Some r)] is (False, r). *)
Fixpoint validate (s : schema) (f : frame) : result (option reason) :=
  match s with
  | [] => Ok None
  | (c, r) :: s' => and_then (validate_column f c r) (validate s' f)
  end.
