(** Cleaning a feature matrix and splitting it into training and test sets.
    Models beep/prediction/beep_data_splitter.py:19-405 and the pandas and scikit-learn operations it uses.
    Simplifications: a frame is the [matrix] of Model_Features (named columns, labelled rows of cells);
    how a cell prints (str) and the shuffling of the random generator are parameters; warnings are left
    out; selecting one column whose name occurs twice, where pandas returns a frame instead of a column,
    is the error [Ambiguous]. *)
From Verif Require Import Py Num Model_Summary Model_Features.

(** beep/prediction/beep_data_splitter.py:15-16 BEEPDataSplitterError *)
Definition BEEPDataSplitterError : exn := OtherError "BEEPDataSplitterError".
(** for [column], beep/prediction/beep_data_splitter.py:96-226 __init__ *)
Definition Ambiguous : exn := OtherError "Ambiguous".

(** ** Frames (for [present], beep/prediction/beep_data_splitter.py:96-226) *)
Definition is_nan (c : cell) : bool := match c with NaN => true | _ => false end.
(** for [construct], beep/prediction/beep_data_splitter.py:96-226 *)
Definition labels (m : matrix) : list string := map fst (m_rows m).
(** for [construct], beep/prediction/beep_data_splitter.py:96-226 *)
Definition map_cells (f : cell -> cell) (m : matrix) : matrix :=
  {| m_columns := m_columns m; m_rows := map (fun r => (fst r, map f (snd r))) (m_rows m) |}.
(** replace([inf, -inf], nan) (for [construct], beep/prediction/beep_data_splitter.py:96-226) *)
Definition no_inf (c : cell) : cell := match c with Inf _ => NaN | c => c end.
(** df[names]: for each name all columns of that name (for [select], beep/prediction/beep_data_splitter.py:96-226) *)
Definition pick {A} (cols names : list string) (row : list A) : list A :=
  flat_map (fun n => map snd (filter (fun p => String.eqb n (fst p)) (combine cols row))) names.
(** for [construct], beep/prediction/beep_data_splitter.py:96-226 *)
Definition select (names : list string) (m : matrix) : matrix :=
  {| m_columns := pick (m_columns m) names (m_columns m); m_rows := map (fun r => (fst r, pick (m_columns m) names (snd r))) (m_rows m) |}.
(** df.loc[labels]: for each label all rows of that label
    (for [construct], beep/prediction/beep_data_splitter.py:96-226) *)
Definition loc (ls : list string) (m : matrix) : matrix :=
  {| m_columns := m_columns m; m_rows := flat_map (fun l => filter (fun r => String.eqb l (fst r)) (m_rows m)) ls |}.
(** for [split], beep/prediction/beep_data_splitter.py:228-278 *)
Definition iloc (is : list nat) (m : matrix) : matrix :=
  {| m_columns := m_columns m; m_rows := flat_map (fun i => match nth_error (m_rows m) i with Some r => [r] | None => [] end) is |}.
(** for [drop_columns], beep/prediction/beep_data_splitter.py:96-226 *)
Definition col (m : matrix) (i : nat) : list cell :=
  flat_map (fun r => match nth_error (snd r) i with Some c => [c] | None => [] end) (m_rows m).
(** for [drop_columns], beep/prediction/beep_data_splitter.py:96-226 *)
Definition present (l : list cell) : Q := inject_Z (Z.of_nat (length (filter (fun c => negb (is_nan c)) l))).
(** for [drop_groups], beep/prediction/beep_data_splitter.py:166-177 *)
Definition count {A} (l : list A) : Q := inject_Z (Z.of_nat (length l)).
(** for [drop_columns], beep/prediction/beep_data_splitter.py:96-226 *)
Definition masked {A} (keep : list bool) (l : list A) : list A := map snd (filter fst (combine keep l)).
(** dropna(axis=1, thresh) (for [construct], beep/prediction/beep_data_splitter.py:96-226) *)
Definition drop_columns (thresh : Q) (m : matrix) : matrix :=
  let keep := map (fun i => Qle_bool thresh (present (col m i))) (seq 0 (length (m_columns m))) in
  {| m_columns := masked keep (m_columns m); m_rows := map (fun r => (fst r, masked keep (snd r))) (m_rows m) |}.
(** dropna(axis=0, thresh) (for [construct], beep/prediction/beep_data_splitter.py:96-226) *)
Definition drop_rows (thresh : Q) (m : matrix) : matrix :=
  {| m_columns := m_columns m; m_rows := filter (fun r => Qle_bool thresh (present (snd r))) (m_rows m) |}.
(** df[name] as a column (for [add_groups], beep/prediction/beep_data_splitter.py:96-226 __init__) *)
Definition column (name : string) (m : matrix) : result (list cell) :=
  match filter (fun p => String.eqb name (fst p)) (combine (m_columns m) (seq 0 (length (m_columns m)))) with
  | [] => Err KeyError
  | [p] => Ok (col m (snd p))
  | _ => Err Ambiguous
  end.

(** ** beep_data_splitter.py:300-319, model.py:450-470 _impute_df *)
(** the numbers of a column; a text makes median and mean fail.  Of a column with an infinity the
    median is not computed here: [Inf] occurs only in prediction, where it makes the scaler fail.
    (for [filler], beep/prediction/beep_data_splitter.py:96-226) *)
Fixpoint numbers (l : list cell) : result (list Q) :=
  match l with
  | [] => Ok []
  | Number x :: r => let! q := numbers r in Ok (x :: q)
  | Flag b :: r => let! q := numbers r in Ok ((if b then 1 else 0) :: q)
  | Text _ :: _ => Err TypeError
  | _ :: r => numbers r
  end.
(** for [impute], beep/prediction/beep_data_splitter.py:96-226 *)
Definition filler (method : string) (l : list cell) : result cell :=
  let! q := numbers l in
  Ok (match (if String.eqb method "median" then median (map Some q) else mean (map Some q)) with Some x => Number x | None => NaN end).
(** for [impute], beep/prediction/beep_data_splitter.py:96-226 *)
Definition fillna (f c : cell) : cell := if is_nan c then f else c.
(** for [construct], beep/prediction/beep_data_splitter.py:96-226 *)
Definition impute (method : string) (m : matrix) : result matrix :=
  if String.eqb method "median" || String.eqb method "mean" then
    let! fs := mapM (fun i => filler method (col m i)) (seq 0 (length (m_columns m))) in
    Ok {| m_columns := m_columns m; m_rows := map (fun r => (fst r, map (fun p => fillna (fst p) (snd p)) (combine fs (snd r)))) (m_rows m) |}
  else if String.eqb method "none" then Ok m
  else Err ValueError.

(** beep/prediction/beep_data_splitter.py:281-298 _remove_param_hash_from_features: name and class are kept *)
Definition strip_to_class (c : string) : string := join delimiter (firstn 2 (str_split delimiter c)).
(** for [construct], beep/prediction/beep_data_splitter.py:96-226 *)
Definition rename (f : string -> string) (m : matrix) : matrix := {| m_columns := map f (m_columns m); m_rows := m_rows m |}.

(** for [splitter], beep/prediction/beep_data_splitter.py:96-226 *)
Record config := {
  features : list string; targets : list string; feature_thresh : Q; sample_thresh : Q; drop_nan_targets : bool;
  impute_strategy : string; n_splits : nat; homogenize : bool;
  split_columns : option (list string); exclusion_columns : option (list string); drop_split_threshold : Q }.
(** for [construct], beep/prediction/beep_data_splitter.py:96-226 *)
Record splitter := {
  s_config : config; s_matrix : matrix; s_X : matrix; s_y : matrix; s_labels : list string }.

Section Splitter.
  (** for [transpose_join], beep/prediction/beep_data_splitter.py:152-154 *)
  Variable str : cell -> string.
  (** for [construct], beep/prediction/beep_data_splitter.py:96-226 *)
  Definition opt_list (o : option (list string)) : list string := match o with Some l => l | None => [] end.
  (** beep/prediction/beep_data_splitter.py:144-145 *)
  Definition fill_exclusions (es : list string) (m : matrix) : matrix :=
    {| m_columns := m_columns m;
       m_rows := map (fun r => (fst r, map (fun p => if str_in (fst p) es then fillna (Flag false) (snd p) else snd p) (combine (m_columns m) (snd r)))) (m_rows m) |}.
  (** beep/prediction/beep_data_splitter.py:152-154: the column "grouping_column", which the matrix does not have *)
  Definition transpose_join (cols : list (list cell)) (n : nat) : list string :=
    map (fun i => join "::" (flat_map (fun c => match nth_error c i with Some x => [str x] | None => [] end) cols)) (seq 0 n).
  (** beep/prediction/beep_data_splitter.py:96-226 __init__ *)
  Definition add_groups (ss : list string) (m : matrix) : result matrix :=
    let! cols := mapM (fun s => column s m) ss in
    Ok {| m_columns := m_columns m ++ ["grouping_column"%string];
          m_rows := map (fun p => (fst (fst p), snd (fst p) ++ [Text (snd p)])) (combine (m_rows m) (transpose_join cols (length (m_rows m)))) |}.
  (** for [drop_groups], beep/prediction/beep_data_splitter.py:166-177 *)
  Definition group_of (r : string * list cell) : string := match last (snd r) NaN with Text g => g | _ => "" end.
  (** beep/prediction/beep_data_splitter.py:156-164: the mask; only booleans can select rows *)
  Definition flags (l : list cell) : result (list bool) := mapM (fun c => match c with Flag b => Ok b | _ => Err TypeError end) l.
  (** beep/prediction/beep_data_splitter.py:96-226 __init__ *)
  Definition mask_of (es : list string) (m : matrix) : result (list bool) :=
    match es with
    | [] => Err IndexError
    | _ => let! cols := mapM (fun e => let! c := column e m in flags c) es in
           Ok (fold_right (fun c acc => map (fun p => fst p && snd p) (combine c acc)) (map (fun _ => true) (m_rows m)) cols)
    end.
  (** for [construct], beep/prediction/beep_data_splitter.py:96-226 *)
  Definition keep_rows (mask : list bool) (m : matrix) : matrix := {| m_columns := m_columns m; m_rows := masked mask (m_rows m) |}.
  (** beep/prediction/beep_data_splitter.py:166-177 *)
  Definition drop_groups (thresh : Q) (X incl : matrix) : matrix :=
    let groups := uniq_s (map group_of (m_rows X)) in
    let members m g := filter (fun r => String.eqb g (group_of r)) (m_rows m) in
    let excluded := filter (fun g => Qlt_bool (count (members incl g) / count (members X g)) thresh) groups in
    {| m_columns := m_columns incl; m_rows := filter (fun r => negb (str_in (group_of r) excluded)) (m_rows incl) |}.
  (** for [construct], beep/prediction/beep_data_splitter.py:96-226 *)
  Definition has_nan (m : matrix) : bool := existsb (fun r => existsb is_nan (snd r)) (m_rows m).
  (** beep/prediction/beep_data_splitter.py:96-226 __init__ *)
  Definition construct (c : config) (m0 : matrix) : result splitter :=
    let m := if homogenize c then rename strip_to_class m0 else m0 in
    let required := targets c ++ features c ++ opt_list (split_columns c) ++ opt_list (exclusion_columns c) in
    if existsb (fun t => negb (str_in t (m_columns m))) required then Err BEEPDataSplitterError
    else
      let X := map_cells no_inf (select (features c ++ opt_list (split_columns c) ++ opt_list (exclusion_columns c)) m) in
      let y := map_cells no_inf (select (targets c) m) in
      let X := drop_columns (feature_thresh c * count (m_rows X)) X in
      let X := drop_rows (sample_thresh c * count (m_columns X)) X in
      let! X := match exclusion_columns c with
                | Some es => if existsb (fun e => negb (str_in e (m_columns X))) es then Err KeyError else Ok (fill_exclusions es X)
                | None => Ok X
                end in
      let! X := impute (impute_strategy c) X in
      let! X := match split_columns c with Some ss => add_groups ss X | None => Ok X end in
      let! X := match exclusion_columns c with
                | Some es =>
                    let! mask := mask_of es X in
                    let incl := keep_rows mask X in
                    Ok (match split_columns c with Some _ => drop_groups (drop_split_threshold c) X incl | None => incl end)
                | None => Ok X
                end in
      if (length (m_rows X) <? 2)%nat || (length (m_columns X) <? 1)%nat then Err BEEPDataSplitterError
      else
        let y := loc (labels X) y in
        let! y := if has_nan y then
                    if drop_nan_targets c then Ok {| m_columns := m_columns y; m_rows := filter (fun r => negb (existsb is_nan (snd r))) (m_rows y) |}
                    else Err BEEPDataSplitterError
                  else Ok y in
        if (length (m_rows y) <? 2)%nat then Err BEEPDataSplitterError
        else
          let X := loc (labels y) X in
          Ok {| s_config := c; s_matrix := m; s_X := X; s_y := y; s_labels := filter (fun l => str_in l (features c)) (m_columns X) |}.

  (** ** scikit-learn's KFold(n_splits, shuffle=True): the shuffled indices are cut into [k] consecutive
      pieces, the first [n mod k] one longer; a fold tests on one piece and trains on the rest
      (for [kfold], beep/prediction/beep_data_splitter.py:228-278) *)
  Variable shuffle : nat -> list nat.
  (** for [kfold], beep/prediction/beep_data_splitter.py:228-278 *)
  Definition fold_size (n k i : nat) : nat := (n / k + (if i <? n mod k then 1 else 0))%nat.
  (** for [kfold], beep/prediction/beep_data_splitter.py:228-278 *)
  Fixpoint cut (sizes : list nat) (l : list nat) : list (list nat) :=
    match sizes with [] => [] | s :: r => firstn s l :: cut r (skipn s l) end.
  (** for [kfold], beep/prediction/beep_data_splitter.py:228-278 *)
  Definition nat_in (x : nat) (l : list nat) : bool := existsb (Nat.eqb x) l.
  (** for [split], beep/prediction/beep_data_splitter.py:228-278 *)
  Definition kfold (k n : nat) : result (list (list nat * list nat)) :=
    if (k <=? 1)%nat || (n <? k)%nat then Err ValueError
    else Ok (map (fun test => (filter (fun i => negb (nat_in i test)) (seq 0 n), filter (fun i => nat_in i test) (seq 0 n)))
                 (cut (map (fold_size n k) (seq 0 k)) (shuffle n))).

  (** for [split], beep/prediction/beep_data_splitter.py:228-278 *)
  Record dataset := { train_X : matrix; train_y : matrix; test_X : matrix; test_y : matrix }.
  (** for [split], beep/prediction/beep_data_splitter.py:228-278 *)
  Definition at_indices (l : list string) (is : list nat) : list string :=
    flat_map (fun i => match nth_error l i with Some x => [x] | None => [] end) is.
  (** for [split], beep/prediction/beep_data_splitter.py:228-278 *)
  Definition in_groups (gs : list string) (m : matrix) : matrix :=
    {| m_columns := m_columns m; m_rows := filter (fun r => str_in (group_of r) gs) (m_rows m) |}.
  (** beep/prediction/beep_data_splitter.py:228-278 split *)
  Definition split (s : splitter) : result (list dataset) :=
    let c := s_config s in
    match split_columns c with
    | None =>
        let! fs := kfold (n_splits c) (length (m_rows (s_X s))) in
        let X := select (s_labels s) (s_X s) in
        Ok (map (fun f => {| train_X := iloc (fst f) X; train_y := iloc (fst f) (s_y s); test_X := iloc (snd f) X; test_y := iloc (snd f) (s_y s) |}) fs)
    | Some _ =>
        let groups := uniq_s (map group_of (m_rows (s_X s))) in
        let! fs := kfold (n_splits c) (length groups) in
        Ok (map (fun f =>
                   let tr := select (s_labels s) (in_groups (at_indices groups (fst f)) (s_X s)) in
                   let te := select (s_labels s) (in_groups (at_indices groups (snd f)) (s_X s)) in
                   {| train_X := tr; train_y := loc (labels tr) (s_y s); test_X := te; test_y := loc (labels te) (s_y s) |}) fs)
    end.

  (** beep/prediction/beep_data_splitter.py:321-358 as_dict, from_dict: constructed again on the matrix rebuilt from its featurizers, with the
      imputation, exclusion columns and group threshold left at their defaults (104, 109-110) *)
  Definition saved_config (s : splitter) : config :=
    let c := s_config s in
    {| features := s_labels s; targets := targets c; feature_thresh := feature_thresh c; sample_thresh := sample_thresh c;
       drop_nan_targets := drop_nan_targets c; impute_strategy := "median"; n_splits := n_splits c; homogenize := homogenize c;
       split_columns := split_columns c; exclusion_columns := None; drop_split_threshold := 1 # 2 |}.
  (** beep/prediction/beep_data_splitter.py:321-358 *)
  Definition reload (s : splitter) (rebuilt : matrix) : result splitter := construct (saved_config s) rebuilt.
End Splitter.
