(** Model of beep/features/principal_components.py: PrincipalComponents and pivot_data.
    Simplifications: numbers are exact and NaN is [None].  What sklearn's StandardScaler and PCA fit, np.std and the square
    root are parameters; PCA takes no NaN, no empty table and no more components than rows or columns.  The
    columns asked for exist in every structured frame, and the pivot column has no NaN.  Not modelled:
    as_dict (attributes of the sklearn objects). *)
From Verif Require Import Py Num Model_Diagnostic Model_Structure Model_Summary Model_Waveform.

(** ** Tables to decompose *)

(** a row of structured_data: cycle, step type, pivot column, quantity (for [pivot], beep/features/principal_components.py:236-242) *)
Record prow := { p_cycle : Z; p_type : string; p_x : Q; p_y : num }.
(** a frame: labels of the columns, rows (for [pivot_data], beep/features/principal_components.py:233-244) *)
Definition table : Type := list Q * list (list num).
(** the distinct values of the pivot column (for [pivot], beep/features/principal_components.py:241) *)
Fixpoint distinct_q (l : list Q) : list Q :=
  match l with [] => [] | x :: r => x :: filter (fun y => negb (Qeq_bool x y)) (distinct_q r) end.
(** same cycle, same column (for [pivot], beep/features/principal_components.py:241) *)
Definition same_cell (a b : prow) : bool := Z.eqb (p_cycle a) (p_cycle b) && Qeq_bool (p_x a) (p_x b).
(** DataFrame.pivot finds two values for one cell (for [pivot], beep/features/principal_components.py:241) *)
Fixpoint doubled (l : list prow) : bool := match l with [] => false | a :: r => existsb (same_cell a) r || doubled r end.
(** a cell of the pivoted frame (for [pivot], beep/features/principal_components.py:241) *)
Definition cell (rows : list prow) (c : Z) (x : Q) : num :=
  match find (fun r => Z.eqb (p_cycle r) c && Qeq_bool (p_x r) x) rows with Some r => p_y r | None => None end.
(** beep/features/principal_components.py:236-238 *)
Definition chosen (cycles : list Z) (frame : list prow) : list prow :=
  filter (fun r => String.eqb (p_type r) "discharge" && existsb (Z.eqb (p_cycle r)) cycles) frame.
(** DataFrame.pivot: rows by cycle, columns by label, both in ascending order (beep/features/principal_components.py:241) *)
Definition pivot (rows : list prow) : result table :=
  if doubled rows then Err ValueError else
  let cols := sort_q (distinct_q (map p_x rows)) in
  Ok (cols, map (fun c => map (cell rows c) cols) (sort_z (uniq (map p_cycle rows)))).
(** a value by label, NaN for labels that are not there (for [concat_tables], beep/features/principal_components.py:239-242) *)
Fixpoint at_label (cols : list Q) (row : list num) (x : Q) : num :=
  match cols, row with
  | c :: cs, v :: vs => if Qeq_bool c x then v else at_label cs vs x
  | _, _ => None
  end.
(** pd.concat with ignore_index: the labels of both frames, those of the first one first (beep/features/principal_components.py:239-242) *)
Definition concat_tables (t u : table) : table :=
  let cols := fst t ++ filter (fun x => negb (existsb (Qeq_bool x) (fst t))) (fst u) in
  (cols, map (fun r => map (at_label (fst t) r) cols) (snd t) ++ map (fun r => map (at_label (fst u) r) cols) (snd u)).
(** beep/features/principal_components.py:234-243 *)
Fixpoint pivot_files (cycles : list Z) (frames : list (list prow)) (acc : table) : result table :=
  match frames with
  | [] => Ok acc
  | f :: r => let! t := pivot (chosen cycles f) in pivot_files cycles r (concat_tables acc t)
  end.
(** what the json string holds (for [pivot_data], beep/features/principal_components.py:228-232) *)
Record file_list_data := { file_list : list string; validity : list string }.
(** beep/features/principal_components.py:205-244 pivot_data.  [load] stands for auto_load_processed and gives the structured frame.
    Simplification: all files are loaded before the first one is pivoted. *)
Definition pivot_data (load : string -> result (list prow)) (d : file_list_data) (cycles : list Z) : result table :=
  let! frames := mapM load (file_list d) in pivot_files cycles frames ([], []).

(** ** Decomposition *)

(** np.min(np.where(np.cumsum(l) > t)), ValueError if there is none (beep/features/principal_components.py:100-107) *)
Fixpoint first_above (t acc : Q) (l : list Q) : option nat :=
  match l with
  | [] => None
  | x :: r => if Qlt_bool t (acc + x) then Some 0%nat else option_map S (first_above t (acc + x) r)
  end.
(** np.percentile of a column, linear between the two nearest values; NaN if a value is NaN (for [decomposition_outliers],
    beep/features/principal_components.py:156-160) *)
Definition percentile (l : list num) (p : Q) : num :=
  match all_some l with
  | None => None
  | Some xs =>
      let s := sort_q xs in
      let h := inject_Z (Z.of_nat (length s - 1)) * (p / 100) in
      let k := Z.to_nat (Qfloor h) in
      match nth_error s k with
      | None => None
      | Some a => Some (a + (nth (S k) s a - a) * (h - inject_Z (Qfloor h)))
      end
  end.
(** a > b, false with NaN (for [flagged], beep/features/principal_components.py:169-171) *)
Definition above (a b : num) : bool := match a, b with Some x, Some y => Qlt_bool y x | _, _ => false end.
(** (x - mean) / std; a component without spread gives NaN, or an infinity that is compared with NaN only (beep/features/principal_components.py:110-112, 164-166) *)
Definition whiten (mean std x : Q) : num := if Qeq_bool std 0 then None else Some ((x - mean) / std).
(** a column of a matrix (for [white_column], beep/features/principal_components.py:110-112) *)
Definition column (j : nat) (rows : list (list Q)) : list Q := map (fun r => nth j r 0) rows.
(** np.mean of a column (for [fit], beep/features/principal_components.py:111, 164) *)
Definition average (l : list Q) : Q := qsum l / inject_Z (Z.of_nat (length l)).
(** np.mean(np.abs(a - b), axis=1), one row (beep/features/principal_components.py:178-180, 198) *)
Definition mean_error (a b : list Q) : Q := average (map (fun '(x, y) => Qabs (x - y)) (combine a b)).
(** what sklearn refuses: nothing, NaN, another number of columns (for [principal_components], beep/features/principal_components.py:97-98, 162, 194) *)
Definition complete (width : nat) (data : list (list num)) : result (list (list Q)) :=
  match data with
  | [] => Err ValueError
  | _ => match all_some (map all_some data) with
         | None => Err ValueError
         | Some rows => if (0 <? width)%nat && forallb (fun r => (length r =? width)%nat) rows then Ok rows else Err ValueError
         end
  end.
(** for [principal_components], beep/features/principal_components.py:98 *)
Definition width_of (data : list (list num)) : nat := match data with [] => 0%nat | r :: _ => length r end.

Section Components.
  (** np.std (for [white_column], beep/features/principal_components.py:112, 164-166) *)
  Variable std : list Q -> Q.
  (** the square root (for [distance], beep/features/principal_components.py:167) *)
  Variable root : Q -> Q.
  (** StandardScaler fitted to the first argument: transform and inverse_transform of a row (beep/features/principal_components.py:97, 114, 139) *)
  Variables scale unscale : list (list Q) -> list Q -> list Q.
  (** PCA fitted to that many components and to the second argument: transform and inverse_transform of a row (beep/features/principal_components.py:98, 109, 115) *)
  Variables project unproject : nat -> list (list Q) -> list Q -> list Q.
  (** explained_variance_ratio_ (beep/features/principal_components.py:103) *)
  Variable ratios : nat -> list (list Q) -> list Q.

  (** beep/features/principal_components.py:30-45: the attributes of the object *)
  Record fitted := { f_data : list (list Q); f_n : nat; f_min : nat; f_embeddings : list (list Q); f_errors : list Q }.
  (** beep/features/principal_components.py:97, 130 *)
  Definition embed (n : nat) (data : list (list Q)) (row : list Q) : list Q := project n (map (scale data) data) (scale data row).
  (** beep/features/principal_components.py:113-116, 132-139 *)
  Definition rebuild (n : nat) (data : list (list Q)) (e : list Q) : list Q := unscale data (unproject n (map (scale data) data) e).
  (** beep/features/principal_components.py:174-181 get_reconstruction_errors, one row *)
  Definition row_error (n : nat) (data : list (list Q)) (row : list Q) : Q := mean_error (rebuild n data (embed n data row)) row.
  (** beep/features/principal_components.py:24-45, 92-117 __init__ and fit *)
  Definition principal_components (n : nat) (threshold : Q) (data : list (list num)) : result fitted :=
    let! rows := complete (width_of data) data in
    if (Nat.min (length rows) (width_of data) <? n)%nat then Err ValueError else
    match first_above threshold 0 (ratios n (map (scale rows) rows)) with
    | None => Err ValueError
    | Some k => Ok {| f_data := rows; f_n := n; f_min := S k; f_embeddings := map (embed n rows) rows; f_errors := map (row_error n rows) rows |}
    end.
  (** beep/features/principal_components.py:47-73 from_interpolated_data, with the defaults of the constructor *)
  Definition from_interpolated_data (load : string -> result (list prow)) (d : file_list_data) (cycles : list Z) : result fitted :=
    let! t := pivot_data load d cycles in principal_components 15 (9 # 10) (snd t).

  (** the rows of new data (for [get_pca_embeddings], beep/features/principal_components.py:130, 162, 194) *)
  Definition rows_for (f : fitted) (data : list (list num)) : result (list (list Q)) :=
    complete (match f_data f with [] => 0%nat | r :: _ => length r end) data.
  (** beep/features/principal_components.py:119-130 get_pca_embeddings *)
  Definition get_pca_embeddings (f : fitted) (data : list (list num)) : result (list (list Q)) :=
    let! rows := rows_for f data in Ok (map (embed (f_n f) (f_data f)) rows).
  (** beep/features/principal_components.py:110-112, 164-166: a component, whitened by the training data *)
  Definition white (f : fitted) (j : nat) (x : Q) : num :=
    whiten (average (column j (f_embeddings f))) (std (column j (f_embeddings f))) x.
  (** beep/features/principal_components.py:110-112: the whitened training data, one component *)
  Definition white_column (f : fitted) (j : nat) : list num := map (white f j) (column j (f_embeddings f)).
  (** beep/features/principal_components.py:169-171, one row *)
  Definition flagged (f : fitted) (upper lower : Q) (e : list Q) : bool :=
    existsb (fun j => above (white f j (nth j e 0)) (percentile (white_column f j) upper)) (seq 0 (f_n f)) ||
    existsb (fun j => above (percentile (white_column f j) lower) (white f j (nth j e 0))) (seq 0 (f_n f)).
  (** beep/features/principal_components.py:155, 167, one row; NaN if a component has no spread *)
  Definition distance (f : fitted) (e : list Q) : num :=
    option_map (fun ds => root (qsum (map (fun d => d * d) ds)))
      (all_some (map (fun j => nsub (white f j (nth j e 0)) (median (white_column f j))) (seq 0 (f_n f)))).
  (** beep/features/principal_components.py:141-172 get_pca_decomposition_outliers *)
  Definition decomposition_outliers (f : fitted) (data : list (list num)) (upper lower : Q) : result (list num * list bool) :=
    if negb (Qle_bool 0 upper && Qle_bool upper 100 && Qle_bool 0 lower && Qle_bool lower 100) then Err ValueError else
    let! es := get_pca_embeddings f data in Ok (map (distance f) es, map (flagged f upper lower) es).
  (** beep/features/principal_components.py:183-202 get_reconstruction_error_outliers *)
  Definition reconstruction_outliers (f : fitted) (data : list (list num)) (threshold : Q) : result (list Q * list bool) :=
    let! rows := rows_for f data in
    let errors := map (row_error (f_n f) (f_data f)) rows in
    match f_errors f with
    | [] => Err ValueError
    | x :: r => Ok (errors, map (fun e => Qlt_bool (largest x r * threshold) e) errors)
    end.
End Components.
