(** Models of the smaller readers: Neware, Battery Archive, Novonix, Indigo, and
    of the Maccor splicing tool. *)
From Verif Require Import Py Num.

(** ** Neware (beep/structure/neware.py) *)
(** beep/structure/neware.py:56-72: the loop over the lines after the three headers.  The state
    is the cycle id, step id and resistance to be written into record lines; they
    start as the integers 0 (joining them raises TypeError) and unbound. *)
Record nw_state := { nw_cycle : option string; nw_step : option string; nw_ir : option string }.
(** beep/structure/neware.py:19-121 from_file *)
Definition nw_start := {| nw_cycle := None; nw_step := None; nw_ir := None |}.
(** for [nw_kind_of], beep/structure/neware.py:60, 64, 71 *)
Inductive nw_kind := StepLine | RecordLine | CycleLine.
(** for [nw_field], beep/structure/neware.py:19-121 from_file *)
Definition comma : string := ",".
(** for [nw_kind_of], beep/structure/neware.py:60, 64, 71 *)
Definition comma_quote : string := String "," (String (ascii_of_nat 34) "").
(** beep/structure/neware.py:60, 64, 71: [line[:2] == ...] *)
Definition nw_kind_of (line : string) : nw_kind :=
  if prefix comma_quote line then StepLine else if prefix ",," line then RecordLine else CycleLine.
(** for [nw_lines], beep/structure/neware.py:19-121 from_file *)
Definition nw_field (line : string) (i : nat) : result string :=
  match nth_error (str_split comma line) i with Some f => Ok f | None => Err IndexError end.
(** [l[i] = x] (for [nw_record], beep/structure/neware.py:19-121 from_file) *)
Fixpoint list_set {A} (l : list A) (i : nat) (x : A) : option (list A) :=
  match l, i with
  | [], _ => None
  | _ :: r, O => Some (x :: r)
  | y :: r, S i' => match list_set r i' x with Some r' => Some (y :: r') | None => None end
  end.
(** for [nw_lines], beep/structure/neware.py:19-121 from_file *)
Definition nw_record (st : nw_state) (line : string) : result (list string) :=
  match nw_ir st with
  | None => Err UnboundLocalError
  | Some ir =>
      match list_set (str_split comma line) 22 ir with
      | None => Err IndexError
      | Some l =>
          match nw_cycle st, nw_step st with
          | Some c, Some s =>
              match l with _ :: _ :: r => Ok (c :: s :: r) | _ => Err IndexError end
          | _, _ => Err TypeError
          end
      end
  end.
(** The written record lines, as lists of fields. (beep/structure/neware.py:19-121 from_file) *)
Fixpoint nw_lines (ir_index : nat) (st : nw_state) (lines : list string) : result (list (list string)) :=
  match lines with
  | [] => Ok []
  | line :: rest =>
      match nw_kind_of line with
      | StepLine => let! s := nw_field line 1 in
                    let! ir := nw_field line ir_index in
                    nw_lines ir_index {| nw_cycle := nw_cycle st; nw_step := Some s; nw_ir := Some ir |} rest
      | RecordLine => let! r := nw_record st line in
                      let! more := nw_lines ir_index st rest in
                      Ok (r :: more)
      | CycleLine => let! c := nw_field line 0 in
                     nw_lines ir_index {| nw_cycle := Some c; nw_step := nw_step st; nw_ir := nw_ir st |} rest
      end
  end.
(** beep/structure/neware.py:97-103: test time from the step clock (no NaN in the step clock). *)
Fixpoint nw_accumulate (t prev : Q) (l : list Q) : list Q :=
  match l with
  | [] => []
  | x :: r => let d := x - prev in
              let d := if Qlt_bool d 0 then 0 else d in
              (t + d) :: nw_accumulate (t + d) x r
  end.
(** beep/structure/neware.py:19-121 from_file *)
Definition nw_test_time (clock : list Q) : list Q :=
  match clock with [] => [] | x :: r => 0 :: nw_accumulate 0 x r end.
(** beep/structure/neware.py:120-138 step_time; [num_of] is float().  Text after the third colon
    from the right is ignored. *)
Definition nw_step_time (num_of : string -> result Q) (x : string) : result Q :=
  match rev (str_split ":" x) with
  | s :: m :: h :: _ => let! h := num_of h in let! m := num_of m in let! s := num_of s in
                        Ok (3600 * h + 60 * m + s)
  | _ => Err IndexError
  end.

(** ** Battery Archive (beep/structure/battery_archive.py) *)
(** beep/structure/battery_archive.py:126-140 *)
Definition decide_step_index (i : Q) : Z :=
  if Qlt_bool (Qabs i) (1 # 1000000) then 1%Z else if Qlt_bool i 0 then 3%Z else 2%Z.
(** beep/structure/battery_archive.py:80: positions where the label differs from the previous one; the first
    position always counts, because the difference to NaN is NaN. *)
Fixpoint changes_from (i : nat) (prev : Z) (l : list Z) : list nat :=
  match l with
  | [] => []
  | x :: r => if Z.eqb x prev then changes_from (S i) x r else i :: changes_from (S i) x r
  end.
(** beep/structure/battery_archive.py:59-123 from_file *)
Definition step_changes (l : list Z) : list nat :=
  match l with [] => [] | x :: r => 0%nat :: changes_from 1 x r end.
(** beep/structure/battery_archive.py:86-96: for every change the start time is repeated up to the next change; the
    last change is followed by row number n-1. *)
Fixpoint repeats (times : list Q) (cs : list nat) (final : nat) : list Q :=
  match cs with
  | [] => []
  | c :: r => let next := match r with [] => final | c' :: _ => c' end in
              repeat (nth c times 0) (next - c) ++ repeats times r final
  end.
(** beep/structure/battery_archive.py:59-123 from_file *)
Definition ba_subtractor (labels : list Z) (times : list Q) : result (list Q) :=
  match labels with
  | [] => Err IndexError                                       (* step_change_ix[0] *)
  | _ => let s := repeats times (step_changes labels) (length labels - 1) in
         match last_error s with
         | None => Err IndexError                              (* subtractor[-1] *)
         | Some x => Ok (s ++ [x])                             (* 97 *)
         end
  end.
(** for [ba_steps], beep/structure/battery_archive.py:72-99 *)
Fixpoint sub_lists (a b : list Q) : list Q :=
  match a, b with x :: a', y :: b' => (x - y) :: sub_lists a' b' | _, _ => [] end.
(** beep/structure/battery_archive.py:72-99: labels and step times of a file *)
Definition ba_steps (rows : list (Q * Q)) : result (list (Z * Q)) :=    (* (current, test time) *)
  let labels := map (fun r => decide_step_index (fst r)) rows in
  let times := map snd rows in
  let! s := ba_subtractor labels times in
  Ok (combine labels (sub_lists times s)).

(** ** Novonix (beep/structure/novonix.py) *)
Record nvrow := { nv_cycle : Z; nv_step : Z; nv_cap : Q; nv_en : Q }.
(** for [novonix_columns], beep/structure/novonix.py:92-174 *)
Record nvout := { nv_charge_cap : num; nv_discharge_cap : num; nv_charge_en : num; nv_discharge_en : num }.
(** novonix_conversion.yaml step_names / step_is_chg (for [novonix_columns], beep/structure/novonix.py:92-174) *)
Definition nv_known (s : Z) : bool := existsb (Z.eqb s) [0; 1; 2; 7; 8; 9; 10]%Z.
(** for [nv_charge_max], beep/structure/novonix.py:142-145 *)
Definition nv_is_charge (s : Z) : bool := existsb (Z.eqb s) [1; 7; 8]%Z.
(** for [nv_discharge_col], beep/structure/novonix.py:92-174 *)
Definition nv_is_rest (s : Z) : bool := Z.eqb s 0.
(** for [nv_charge_max], beep/structure/novonix.py:142-145 *)
Definition nv_of_cycle (rows : list nvrow) (c : Z) : list nvrow := filter (fun r => Z.eqb (nv_cycle r) c) rows.
(** beep/structure/novonix.py:142-145: groupby transform max of the charge column (NaN if the
    cycle has no charge row). *)
Definition nv_charge_max (q : nvrow -> Q) (rows : list nvrow) (c : Z) : num :=
  col_max (map (fun r => if nv_is_charge (nv_step r) then Some (q r) else None) (nv_of_cycle rows c)).
(** beep/structure/novonix.py:148-155: the reference of a cycle without any charge row is the largest
    capacity, for both quantities. *)
Definition nv_reference (q : nvrow -> Q) (rows : list nvrow) (c : Z) : num :=
  if forallb (fun r => negb (nv_is_charge (nv_step r))) (nv_of_cycle rows c)
  then col_max (map (fun r => Some (nv_cap r)) (nv_of_cycle rows c))
  else nv_charge_max q rows c.
(** beep/structure/novonix.py:118-121 and 161-171 *)
Definition nv_charge_col (q : nvrow -> Q) (r : nvrow) : num :=
  if nv_is_charge (nv_step r) then Some (q r) else None.
(** for [novonix_columns], beep/structure/novonix.py:92-174 *)
Definition nv_discharge_col (q : nvrow -> Q) (rows : list nvrow) (r : nvrow) : num :=
  if nv_is_charge (nv_step r) then None
  else if nv_is_rest (nv_step r) then Some (q r)
  else nsub (nv_reference q rows (nv_cycle r)) (Some (q r)).
(** beep/structure/novonix.py:92-174; unknown step types raise (97-107). *)
Definition novonix_columns (rows : list nvrow) : result (list nvout) :=
  if forallb (fun r => nv_known (nv_step r)) rows
  then Ok (map (fun r => {| nv_charge_cap := nv_charge_col nv_cap r;
                            nv_discharge_cap := nv_discharge_col nv_cap rows r;
                            nv_charge_en := nv_charge_col nv_en r;
                            nv_discharge_en := nv_discharge_col nv_en rows r |}) rows)
  else Err ValueError.

(** ** Indigo (beep/structure/indigo.py:50-83) *)
Record inrow := { in_cell : Z; in_half_cycle : Z; in_coulomb : Q; in_energy : Q }.
(** for [indigo_row], beep/structure/indigo.py:21-100 from_file *)
Record inout := { in_charge_cap : Q; in_discharge_cap : Q; in_charge_en : Q; in_discharge_en : Q }.
(** for [indigo_columns], beep/structure/indigo.py:21-100 from_file *)
Definition indigo_row (r : inrow) : inout :=
  let odd := Z.eqb (in_half_cycle r mod 2) 1 in
  {| in_charge_cap := if odd then Qabs (in_coulomb r) / 3600 else 0;
     in_discharge_cap := if odd then 0 else Qabs (in_coulomb r) / 3600;
     in_charge_en := if odd then Qabs (in_energy r) else 0;
     in_discharge_en := if odd then 0 else Qabs (in_energy r) |}.
(** beep/structure/indigo.py:21-100 from_file *)
Definition indigo_columns (rows : list inrow) : result (Z * list inout) :=
  match rows with
  | [] => Err IndexError                                       (* iloc[0] *)
  | r0 :: _ => if forallb (fun r => Z.eqb (in_cell r) (in_cell r0)) rows
               then Ok (in_cell r0, map indigo_row rows)
               else Err ValueError                             (* 50-51 *)
  end.

(** ** Splicing Maccor files (beep/utils/splice.py) *)
Definition sframe := list (string * list Q).
(** beep/utils/splice.py:83-91 *)
Definition columns_to_update : list string :=
  ["Rec#"; "Cyc#"; "Test (Sec)"; "Loop1"; "Loop2"; "Loop3"; "Loop4"]%string.
(** beep/utils/splice.py:92-94: one column.  Empty columns raise IndexError at iloc. *)
Definition increment_column (d1 d2 : sframe) (c : string) : result sframe :=
  match sget d2 c, sget d1 c with
  | Some ((x :: _) as col2), Some col1 =>
      match last_error col1 with
      | Some y => Ok (if Qlt_bool x y then sset d2 c (map (fun v => v + y) col2) else d2)
      | None => Err IndexError
      end
  | Some [], _ => Err IndexError
  | _, _ => Err KeyError
  end.
(** beep/utils/splice.py:71-96 column_increment *)
Fixpoint increment_columns (d1 d2 : sframe) (cs : list string) : result sframe :=
  match cs with
  | [] => Ok d2
  | c :: r => let! d2' := increment_column d1 d2 c in increment_columns d1 d2' r
  end.
(** beep/utils/splice.py:71-96 column_increment *)
Definition column_increment (d1 d2 : sframe) : result sframe := increment_columns d1 d2 columns_to_update.
(** beep/utils/splice.py:98-110 pd.concat of two frames with the same columns.
    Simplification: frames with different columns (padded with NaN) are left out. *)
Definition splice_frames (d1 d2 : sframe) : sframe :=
  map (fun '(c, col) => (c, col ++ match sget d2 c with Some col2 => col2 | None => [] end)) d1.
(** beep/utils/splice.py:98-111 splice_operation *)
Definition splice (d1 d2 : sframe) : result sframe :=
  let! d2' := column_increment d1 d2 in Ok (splice_frames d1 d2').
