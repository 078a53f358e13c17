(** Model of interpolate_df (beep/structure/base.py:1258-1320), one value
    column at a time (pandas interpolates columns independently; the row
    structure depends on the axis column only). *)
From Verif Require Import Py Num.

(** A sample: axis value and value of the column (NaN = None). (for [merged], beep/structure/base.py:1301-1307) *)
Definition sample := (Q * num)%type.

(** np.linspace(a, b, n) (beep/structure/base.py:1300) *)
Definition linspace (a b : Q) (n : nat) : list Q :=
  match n with
  | O => []
  | S O => [a]
  | S m => map (fun i => a + inject_Z (Z.of_nat i) * ((b - a) / inject_Z (Z.of_nat m))) (seq 0 n)
  end.

(** for [dedup_aux], beep/structure/base.py:1301-1307 *)
Definition has_key (k : Q) (l : list Q) : bool := existsb (Qeq_bool k) l.
(** First occurrence of every key (the duplicates dropped at 1319; the model
    already collapses repeated grid points before the merge). (for [dedup], beep/structure/base.py:1301-1307) *)
Fixpoint dedup_aux (seen l : list Q) : list Q :=
  match l with
  | [] => []
  | x :: r => if has_key x seen then dedup_aux seen r else x :: dedup_aux (x :: seen) r
  end.
(** for [merged], beep/structure/base.py:1301-1307 *)
Definition dedup := dedup_aux [].

(** A row of the merged frame: axis, value, "interpolated_x". (for [insert], beep/structure/base.py:1306) *)
Record mrow := { m_x : Q; m_y : num; m_grid : bool }.

(** Stable sort on the axis (merge(..., sort=True), beep/structure/base.py:1306). *)
Fixpoint insert (r : mrow) (l : list mrow) : list mrow :=
  match l with
  | [] => [r]
  | s :: l' => if Qle_bool (m_x r) (m_x s) then r :: l else s :: insert r l'
  end.
(** beep/structure/base.py:1258-1320 interpolate_df *)
Fixpoint sort_rows (l : list mrow) : list mrow :=
  match l with [] => [] | r :: l' => insert r (sort_rows l') end.

(** Outer merge of grid and samples on the axis (beep/structure/base.py:1301-1307). *)
Definition merged (samples : list sample) (grid : list Q) : list mrow :=
  sort_rows
    (map (fun s => {| m_x := fst s; m_y := snd s; m_grid := has_key (fst s) grid |}) samples ++
     map (fun g => {| m_x := g; m_y := None; m_grid := true |})
         (filter (fun g => negb (has_key g (map fst samples))) (dedup grid))).

(** The valid points of a column, in axis order. (for [interpolate_df], beep/structure/base.py:1258-1320) *)
Fixpoint valid (l : list mrow) : list (Q * Q) :=
  match l with
  | [] => []
  | r :: l' => match m_y r with Some y => (m_x r, y) :: valid l' | None => valid l' end
  end.

(** np.interp over the valid points: last point at or before [x], first point
    after [x]; beyond the last point its value is held. (for [interp_at], beep/structure/base.py:1308) *)
Fixpoint last_le (x : Q) (l : list (Q * Q)) : option (Q * Q) :=
  match l with
  | [] => None
  | p :: r => match last_le x r with
              | Some q => Some q
              | None => if Qle_bool (fst p) x then Some p else None
              end
  end.
(** for [interp_at], beep/structure/base.py:1308 *)
Fixpoint first_gt (x : Q) (l : list (Q * Q)) : option (Q * Q) :=
  match l with
  | [] => None
  | p :: r => if Qlt_bool x (fst p) then Some p else first_gt x r
  end.
(** for [fill], beep/structure/base.py:1308 *)
Definition interp_at (v : list (Q * Q)) (x : Q) : num :=
  match last_le x v with
  | None => None
  | Some (x0, y0) =>
      match first_gt x v with
      | None => Some y0
      | Some (x1, y1) => Some (y0 + (y1 - y0) / (x1 - x0) * (x - x0))
      end
  end.

(** DataFrame.interpolate("index") (beep/structure/base.py:1308): forward only, so rows
    before the first valid value stay NaN. *)
Fixpoint fill (v : list (Q * Q)) (seen : bool) (l : list mrow) : list mrow :=
  match l with
  | [] => []
  | r :: l' =>
      match m_y r with
      | Some _ => r :: fill v true l'
      | None => {| m_x := m_x r; m_y := if seen then interp_at v (m_x r) else None; m_grid := m_grid r |}
                :: fill v seen l'
      end
  end.

(** beep/structure/base.py:1319 – drop rows whose axis value occurred before. *)
Fixpoint drop_dup (seen : list Q) (l : list mrow) : list sample :=
  match l with
  | [] => []
  | r :: l' => if has_key (m_x r) seen then drop_dup seen l'
               else (m_x r, m_y r) :: drop_dup (m_x r :: seen) l'
  end.

(** beep/structure/base.py:1258-1320 interpolate_df on a numeric axis.  [range = None] takes
    the first and last axis value (1287-1288). *)
Definition interpolate_df (samples : list sample) (range : option (Q * Q)) (resolution : nat)
  : result (list sample) :=
  let go a b :=
    let rows := merged samples (linspace a b resolution) in
    Ok (drop_dup [] (filter m_grid (fill (valid rows) false rows))) in
  match range with
  | Some (a, b) => go a b
  | None => match samples, last_error samples with
            | (a, _) :: _, Some (b, _) => go a b
            | _, _ => Err IndexError
            end
  end.
