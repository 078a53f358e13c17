(** Model of the Maccor reader (beep/structure/maccor.py): quantity_sum (174-243)
    and the header line (246-331), with the constants of
    beep/conversion_schemas/maccor_conversion.yaml. *)
From Verif Require Import Py Num.

(** A Maccor record after renaming (beep/conversion_schemas/maccor_conversion.yaml:12-36). Simplification:
    _capacity and _energy are never NaN; the frame has the index 0..n-1, as read
    by read_csv. *)
Record mrec := {
  mc_cycle : Z; mc_step : Z; mc_state : string; mc_es : Z;
  mc_cap : Q; mc_energy : Q;
  mc_wf_chg_cap : num; mc_wf_dis_cap : num; mc_wf_chg_e : num; mc_wf_dis_e : num }.

(** for [plain_value], beep/structure/maccor.py:189-190 *)
Inductive quantity := Capacity | Energy.
(** for [state_code], beep/conversion_schemas/maccor_conversion.yaml:2-5 *)
Inductive direction := Charge | Discharge.

(** beep/conversion_schemas/maccor_conversion.yaml:2-5 *)
Definition state_code (d : direction) : string := match d with Charge => "C" | Discharge => "D" end.
(** for [end_inds], beep/structure/maccor.py:208-216 *)
Definition end_code (es : Z) : bool := (128 <=? es)%Z && (es <=? 255)%Z.

(** beep/structure/maccor.py:189-190 *)
Definition plain_value (qy : quantity) (d : direction) (r : mrec) : Q :=
  if String.eqb (mc_state r) (state_code d)
  then match qy with Capacity => mc_cap r | Energy => mc_energy r end
  else 0.
(** for [step_values], beep/structure/maccor.py:192-206 *)
Definition is_num (x : num) : bool := match x with Some _ => true | None => false end.
(** for [step_values], beep/structure/maccor.py:192-206 *)
Definition wf_value (qy : quantity) (d : direction) (r : mrec) : num :=
  match d, qy with
  | Discharge, Capacity => mc_wf_dis_cap r
  | Charge, Capacity => mc_wf_chg_cap r
  | Discharge, Energy => mc_wf_dis_e r
  | Charge, Energy => mc_wf_chg_e r
  end.
(** beep/structure/maccor.py:192-206: the value of each record before accumulation. *)
Definition step_values (qy : quantity) (d : direction) (rows : list mrec) : list Q :=
  if existsb (fun r => is_num (mc_wf_chg_cap r)) rows
  then map (fun r => match wf_value qy d r with Some v => v | None => plain_value qy d r end) rows
  else map (plain_value qy d) rows.

(** beep/structure/maccor.py:208-216: positions of records with an end code whose successor
    has another step number (the last record has no successor). *)
Fixpoint end_inds (i : nat) (rows : list mrec) : list nat :=
  match rows with
  | r :: ((r' :: _) as t) =>
      if end_code (mc_es r) && negb (Z.eqb (mc_step r) (mc_step r'))
      then i :: end_inds (S i) t else end_inds (S i) t
  | _ => []
  end.

(** [q[b:e] += s] by position (for [loop_step], beep/structure/maccor.py:222-237) *)
Fixpoint add_slice (i b e : nat) (s : Q) (l : list Q) : list Q :=
  match l with
  | [] => []
  | x :: r => (if (b <=? i)%nat && (i <? e)%nat then x + s else x) :: add_slice (S i) b e s r
  end.

(** beep/structure/maccor.py:222-237: state of the loop is the series, the accumulator and the
    first position of the current step. *)
Definition loop_step (rows : list mrec) (st : list Q * Q * nat) (e : nat) : list Q * Q * nat :=
  let '(q, sum, b) := st in
  let changed := match nth_error rows (b - 1), nth_error rows b with
                 | Some r, Some r' => negb (Z.eqb (mc_cycle r) (mc_cycle r'))
                 | _, _ => false
                 end in
  let sum := if changed then 0 else sum in
  let q := add_slice 0 b (e + 1) sum q in
  let sum := nth e q 0 in
  (q, sum, (e + 1)%nat).

(** beep/structure/maccor.py:174-243 quantity_sum *)
Definition quantity_sum (qy : quantity) (d : direction) (rows : list mrec) : list Q :=
  let v := step_values qy d rows in
  match end_inds 0 rows with
  | [] => v                                                        (* 218-219 *)
  | ends =>
      let '(q, sum, b) := fold_left (loop_step rows) ends (v, 0, 1%nat) in
      add_slice 0 b (length v) sum q                               (* 240-242: end_step_inds[-1] < last index always *)
  end.

(** beep/structure/maccor.py:308-331 split_string_by_fields; tuple unpacking demands exactly
    two parts.  str.split("") raises ValueError as well. *)
Definition split2 (s field : string) : result (string * string) :=
  if String.eqb field "" then Err ValueError
  else match str_split field s with
       | [a; b] => Ok (a, b)
       | _ => Err ValueError
       end.
(** beep/structure/maccor.py:308-331 split_string_by_fields *)
Fixpoint split_rest (leftovers : string) (fields : list string) : result (list string) :=
  match fields with
  | [] => Ok [leftovers]
  | f :: fs => let! p := split2 leftovers f in
               let! r := split_rest (snd p) fs in
               Ok (fst p :: r)
  end.
(** beep/structure/maccor.py:308-331 split_string_by_fields *)
Definition split_string_by_fields (s : string) (fields : list string) : result (list string) :=
  match fields with
  | [] => Err IndexError
  | f :: fs => let! p := split2 s f in split_rest (snd p) fs
  end.
