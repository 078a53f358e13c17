(** Featurizers and feature matrices.
    Models beep/features/base.py:44-364 (the abstract validate and create_features excepted).
    Simplifications: a table of features is a number of rows and a list of named columns; the row
    labels of features are left out (serialisation drops them and the matrix replaces them);
    hyperparameter values, how they print and what JSON makes of them, and the hash, are parameters;
    paths and metadata hold texts. *)
From Verif Require Import Py Num.

(** for [table], beep/features/base.py:60-86 *)
Inductive cell := Number (x : Q) | NaN | Inf (negative : bool) | Flag (b : bool) | Text (s : string).
(** for [featurizer], beep/features/base.py:60-86 *)
Record table := { n_rows : nat; columns : list (string * list cell) }.

(** beep/features/base.py:236, 286 sorted(...) of texts *)
Definition string_leb (a b : string) : bool := match String.compare a b with Gt => false | _ => true end.
Section Sort.
  Context {A : Type} (key : A -> string).
  (** beep/features/base.py:211-293 __init__ *)
  Fixpoint insert_s (x : A) (l : list A) : list A :=
    match l with [] => [x] | y :: r => if string_leb (key x) (key y) then x :: l else y :: insert_s x r end.
  (** for [param_str], beep/features/base.py:236-244 *)
  Fixpoint sort_s (l : list A) : list A := match l with [] => [] | x :: r => insert_s x (sort_s r) end.
End Sort.
(** for [by_file], beep/features/base.py:214, 281 *)
Fixpoint uniq_s (l : list string) : list string :=
  match l with [] => [] | x :: r => x :: filter (fun y => negb (String.eqb x y)) (uniq_s r) end.

(** beep/features/base.py:34-36 BEEPFeaturizationError *)
Definition BEEPFeaturizationError : exn := OtherError "BEEPFeaturizationError".
(** beep/features/base.py:39-41 BEEPFeatureMatrixError *)
Definition BEEPFeatureMatrixError : exn := OtherError "BEEPFeatureMatrixError".
(** for [concat_rows], beep/features/base.py:288 *)
Definition InvalidIndexError : exn := OtherError "InvalidIndexError".

Section Features.
  Variables (val : Type) (show : val -> string) (json : val -> val) (hash : string -> string).
  (** for [defaults_of], beep/features/base.py:58 *)
  Definition hyper := list (string * val).
  (** beep/features/base.py:58 DEFAULT_HYPERPARAMETERS of the featurizer classes *)
  Variable defaults_of : string -> hyper.
  (** for [init], beep/features/base.py:60-86 *)
  Record datapath := { is_structured : bool; dp_paths : list (string * string); dp_metadata : list (string * string); dp_id : string }.
  (** for [init], beep/features/base.py:60-86 *)
  Record featurizer := {
    f_class : string; f_hyper : hyper; f_features : option table;
    f_paths : list (string * string); f_metadata : list (string * string); f_id : option string }.

  (** beep/features/base.py:60-86 BEEPFeaturizer.__init__; None and the empty dictionary are both false *)
  Definition init (cls : string) (dp : option datapath) (given : option hyper) : result featurizer :=
    let! h := match given with
              | Some ((_ :: _) as h) =>
                  if forallb (fun d => smem h (fst d)) (defaults_of cls) then Ok h else Err BEEPFeaturizationError
              | _ => Ok (defaults_of cls)
              end in
    match dp with
    | Some dp => if is_structured dp
                 then Ok {| f_class := cls; f_hyper := h; f_features := None; f_paths := dp_paths dp; f_metadata := dp_metadata dp; f_id := Some (dp_id dp) |}
                 else Err BEEPFeaturizationError
    | None => Ok {| f_class := cls; f_hyper := h; f_features := None; f_paths := []; f_metadata := []; f_id := None |}
    end.
  (** beep/features/base.py:60-86 __init__ *)
  Definition with_features (f : featurizer) (t : table) : featurizer :=
    {| f_class := f_class f; f_hyper := f_hyper f; f_features := Some t; f_paths := f_paths f; f_metadata := f_metadata f; f_id := f_id f |}.

  (** for [as_dict], beep/features/base.py:109-134 *)
  Record fdict := {
    d_class : string; d_features : list (string * list cell); d_hyper : hyper;
    d_paths : list (string * string); d_metadata : list (string * string); d_id : option string }.
  (** beep/features/base.py:122 DataFrame.to_dict("list"): of columns of the same name the last is kept *)
  Definition to_dict_list (t : table) : list (string * list cell) := fold_left (fun d c => sset d (fst c) (snd c)) (columns t) [].
  (** beep/features/base.py:150 pd.DataFrame(dict of lists) *)
  Definition from_columns (l : list (string * list cell)) : table :=
    {| n_rows := match l with [] => 0 | c :: _ => length (snd c) end; columns := l |}.
  (** beep/features/base.py:109-134 as_dict *)
  Definition as_dict (f : featurizer) : result fdict :=
    match f_features f with
    | None => Err BEEPFeaturizationError
    | Some t => Ok {| d_class := f_class f; d_features := to_dict_list t; d_hyper := f_hyper f; d_paths := f_paths f; d_metadata := f_metadata f; d_id := f_id f |}
    end.
  (** beep/features/base.py:180-196 to_json_file, 171-172: what is read back after writing the dictionary to a JSON file *)
  Definition through_json (d : fdict) : fdict :=
    {| d_class := d_class d; d_features := d_features d; d_hyper := map (fun kv => (fst kv, json (snd kv))) (d_hyper d);
       d_paths := d_paths d; d_metadata := d_metadata d; d_id := d_id d |}.
  (** beep/features/base.py:136-154 from_dict *)
  Definition from_dict (d : fdict) : result featurizer :=
    let! f := init (d_class d) None (Some (d_hyper d)) in
    Ok {| f_class := f_class f; f_hyper := f_hyper f; f_features := Some (from_columns (d_features d));
          f_paths := d_paths d; f_metadata := d_metadata d; f_id := d_id d |}.
  (** beep/features/base.py:155-178 from_json_file: the file's own path is added *)
  Definition from_json_file (filename : string) (d : fdict) : result featurizer :=
    from_dict {| d_class := d_class d; d_features := d_features d; d_hyper := d_hyper d; d_paths := sset (d_paths d) "features" filename;
                 d_metadata := d_metadata d; d_id := d_id d |}.

  (** ** The matrix (for [concat_rows], beep/features/base.py:288) *)
  Record matrix := { m_columns : list string; m_rows : list (string * list cell) }.
  (** for [op_id], beep/features/base.py:248 *)
  Definition delimiter : string := "::".
  (** beep/features/base.py:236-244 *)
  Definition param_str (h : hyper) : string := join "-" (map (fun kv => fst kv ++ ":" ++ show (snd kv))%string (sort_s fst h)).
  (** beep/features/base.py:248 *)
  Definition op_id (f : featurizer) : string := (f_class f ++ delimiter ++ hash (param_str (f_hyper f)))%string.
  (** beep/features/base.py:252-259 *)
  Definition column_id (fname : string) (f : featurizer) (c : string) : string := (fname ++ delimiter ++ op_id f ++ delimiter ++ c)%string.
  (** beep/features/base.py:274-277 *)
  Definition consistent_name (f : featurizer) (c : string) : string := (c ++ delimiter ++ op_id f)%string.
  (** for [collect], beep/features/base.py:217-281 *)
  Definition bind_row := (string * list (string * cell))%type.
  (** beep/features/base.py:217-281, the loop over the featurizers: file and features of each, in order *)
  Fixpoint collect (l : list featurizer) (unique : list string) : result (list bind_row) :=
    match l with
    | [] => Ok []
    | f :: l =>
        match f_features f with
        | None => Err BEEPFeatureMatrixError
        | Some t =>
            if negb (Nat.eqb (n_rows t) 1) then Err BEEPFeatureMatrixError
            else match sget (f_paths f) "structured" with
                 | None | Some ""%string => Err BEEPFeatureMatrixError
                 | Some fname =>
                     let ids := map (fun c => column_id fname f (fst c)) (columns t) in
                     if existsb (fun u => str_in u ids) unique then Err BEEPFeatureMatrixError
                     else let! rest := collect l (unique ++ ids) in
                          Ok ((fname, flat_map (fun c => map (pair (consistent_name f (fst c))) (snd c)) (columns t)) :: rest)
                 end
        end
    end.
  (** beep/features/base.py:214, 281: the frames of each file, files in order of their first featurizer *)
  Definition by_file (l : list bind_row) : list bind_row :=
    map (fun fname => (fname, flat_map snd (filter (fun r => String.eqb fname (fst r)) l))) (uniq_s (map fst l)).
  (** beep/features/base.py:283-286 row[sorted(row.columns)]: a name that occurs n times selects its n columns n times *)
  Definition sorted_row (r : bind_row) : bind_row :=
    (fst r, flat_map (fun c => filter (fun x => String.eqb c (fst x)) (snd r)) (sort_s (fun c => c) (map fst (snd r)))).
  (** for [concat_rows], beep/features/base.py:288 *)
  Fixpoint all_distinct (l : list string) : bool :=
    match l with [] => true | x :: r => negb (str_in x r) && all_distinct r end.
  (** for [concat_rows], beep/features/base.py:288 *)
  Fixpoint same_list (a b : list string) : bool :=
    match a, b with [], [] => true | x :: a, y :: b => String.eqb x y && same_list a b | _, _ => false end.
  (** beep/features/base.py:288 pd.concat(rows, axis=0): same columns: stacked; else the union of the columns in order of
      appearance, missing entries NaN; pandas refuses repeated names in that case *)
  Definition concat_rows (l : list bind_row) : result matrix :=
    let heads := map (fun r => map fst (snd r)) l in
    match heads with
    | [] => Err ValueError
    | h :: hs =>
        if forallb (same_list h) hs then Ok {| m_columns := h; m_rows := map (fun r => (fst r, map snd (snd r))) l |}
        else if forallb all_distinct heads then
          let cols := uniq_s (concat heads) in
          Ok {| m_columns := cols;
                m_rows := map (fun r => (fst r, map (fun c => match sget (snd r) c with Some v => v | None => NaN end) cols)) l |}
        else Err InvalidIndexError
    end.
  (** beep/features/base.py:211-293 BEEPFeatureMatrix.__init__; [None] without featurizers *)
  Definition matrix_of (l : list featurizer) : result (option matrix) :=
    match l with
    | [] => Ok None
    | _ => let! rows := collect l [] in let! m := concat_rows (map sorted_row (by_file rows)) in Ok (Some m)
    end.
  (** beep/features/base.py:295-332 as_dict, through JSON, from_dict: the matrix is built again from the featurizers;
      without a matrix as_dict fails *)
  Definition reload_matrix (l : list featurizer) : result (list featurizer * option matrix) :=
    let! m := matrix_of l in
    let! ds := mapM as_dict l in
    match m with
    | None => Err AttributeError
    | Some _ => let! l' := mapM (fun d => from_dict (through_json d)) ds in let! m' := matrix_of l' in Ok (l', m')
    end.
End Features.
