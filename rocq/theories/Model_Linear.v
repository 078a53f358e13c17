(** Training a linear model on a feature matrix and predicting with it.
    Models beep/model.py:82-562.
    Simplifications: frames, imputation and the pandas operations are those of Model_Splitter; the
    standard deviation of a column (with 1 in place of 0, as scikit-learn has it) and the search for the
    model's coefficients (ElasticNetCV, LassoCV, RidgeCV and the refit) are parameters; the training
    options that only reach that search (alphas, kfold, max_iter, tol, l1_ratio) and the error metrics
    are left out, and so are log messages. *)
From Verif Require Import Py Num Model_Summary Model_Features Model_Splitter.

(** beep/model.py:37-39 BEEPMLExperimentError *)
Definition BEEPMLExperimentError : exn := OtherError "BEEPMLExperimentError".

(** beep/model.py:433-449 _remove_param_hash_from_features: the last part is dropped *)
Definition strip_hash (c : string) : string := join delimiter (removelast (str_split delimiter c)).

(** for [experiment], beep/model.py:90-208 *)
Record settings := {
  l_targets : list string; model_name : string; feature_thr : Q; sample_thr : Q; predict_thr : Q;
  drop_nan : bool; l_impute : string; l_homogenize : bool }.

(** scikit-learn's check of an array: only finite numbers (for [finite_or_missing], beep/model.py:90-208) *)
Definition finite (c : cell) : result Q :=
  match c with Number x => Ok x | Flag b => Ok (if b then 1 else 0) | _ => Err ValueError end.
(** StandardScaler accepts missing values, but nothing else that is not finite (for [fit_scaler], beep/model.py:90-208) *)
Fixpoint finite_or_missing (l : list cell) : result (list Q) :=
  match l with
  | [] => Ok []
  | NaN :: r => finite_or_missing r
  | c :: r => let! x := finite c in let! q := finite_or_missing r in Ok (x :: q)
  end.

(** for [linear_predict], beep/model.py:298-377 *)
Record linear := { coefs : list (list Q); intercepts : list Q }.
(** for [linear_predict], beep/model.py:298-377 *)
Definition dot (a b : list Q) : Q := fold_right (fun p acc => fst p * snd p + acc) 0 (combine a b).
(** for [predict], beep/model.py:298-377 *)
Definition linear_predict (l : linear) (row : list Q) : list Q := map (fun p => dot (fst p) row + snd p) (combine (coefs l) (intercepts l)).

(** Per column the mean and the divisor; nothing for a column without numbers. (for [experiment], beep/model.py:90-208) *)
Definition scaler : Type := list (option (Q * Q)).
(** for [create], beep/model.py:90-208 *)
Record experiment := {
  e_settings : settings; e_features : matrix; e_target_matrix : matrix;
  e_X : matrix; e_y : matrix; e_labels : list string; e_scaler : scaler; e_model : option linear }.

Section Linear.
  (** for [fit_scaler], beep/model.py:90-208 *)
  Variable scale : list Q -> Q.
  (** for [train], beep/model.py:210-296 *)
  Variable fit : settings -> list (list Q) -> list (list Q) -> result linear.

  (** StandardScaler.fit (for [create], beep/model.py:90-208) *)
  Definition fit_scaler (m : matrix) : result scaler :=
    mapM (fun i => let! q := finite_or_missing (col m i) in
                   Ok (match mean (map Some q) with Some mu => Some (mu, scale q) | None => None end)) (seq 0 (length (m_columns m))).
  (** StandardScaler.transform followed by the check of the model (for [train], beep/model.py:210-296) *)
  Definition scaled (sc : scaler) (row : list cell) : result (list Q) :=
    mapM (fun p => let! x := finite (snd p) in
                   match fst p with Some (mu, d) => Ok ((x - mu) / d) | None => Err ValueError end) (combine sc row).

  (** beep/model.py:90-208 __init__ *)
  Definition create (c : settings) (fm tm : matrix) : result experiment :=
    if negb (str_in (model_name c) ["elasticnet"; "ridge"; "lasso"]%string) then Err ValueError
    else if (length (l_targets c) <? 1)%nat then Err ValueError
    else
      let X := map_cells no_inf fm in
      let y := map_cells no_inf tm in
      let X := if l_homogenize c then rename strip_hash X else X in
      let y := if l_homogenize c then rename strip_hash y else y in
      if negb (length (m_rows X) =? length (m_rows y))%nat then Err BEEPMLExperimentError
      else
        let X := drop_columns (sample_thr c * count (m_rows X)) X in
        let X := drop_rows (sample_thr c * count (m_columns X)) X in
        let! X := impute (l_impute c) X in
        if (length (m_rows X) <? 2)%nat || (length (m_columns X) <? 1)%nat then Err BEEPMLExperimentError
        else if existsb (fun t => negb (str_in t (m_columns y))) (l_targets c) then Err BEEPMLExperimentError
        else
          let y := select (l_targets c) y in
          if existsb (fun l => negb (str_in l (labels y))) (labels X) then Err KeyError
          else
            let y := loc (labels X) y in
            let! y := if has_nan y then
                        if drop_nan c then Ok {| m_columns := m_columns y; m_rows := filter (fun r => negb (existsb is_nan (snd r))) (m_rows y) |}
                        else Err BEEPMLExperimentError
                      else Ok y in
            if (length (m_rows y) <? 2)%nat then Err BEEPMLExperimentError
            else
              let X' := loc (labels y) X in
              if (1 <? length (l_targets c))%nat && negb (String.eqb (model_name c) "elasticnet") then Err BEEPMLExperimentError
              else
                let! sc := fit_scaler X in
                Ok {| e_settings := c; e_features := fm; e_target_matrix := tm; e_X := X'; e_y := y; e_labels := m_columns X'; e_scaler := sc; e_model := None |}.

  (** beep/model.py:210-296 train; [Xy] is given by train_and_score (379-402), a part of the data *)
  Definition train (e : experiment) (Xy : option (matrix * matrix)) : result experiment :=
    let '(X, y) := match Xy with Some p => p | None => (e_X e, e_y e) end in
    let! sc := fit_scaler X in
    let! xs := mapM (fun r => scaled sc (snd r)) (m_rows X) in
    let! ys := mapM (fun r => mapM finite (snd r)) (m_rows y) in
    let! l := fit (e_settings e) xs ys in
    Ok {| e_settings := e_settings e; e_features := e_features e; e_target_matrix := e_target_matrix e; e_X := e_X e; e_y := e_y e; e_labels := e_labels e; e_scaler := sc; e_model := Some l |}.

  (** beep/model.py:298-377 predict, with the matrix passed in as it is afterwards: its columns are renamed in place *)
  Definition predict (e : experiment) (homog : option bool) (m : matrix) : matrix * result (matrix * list string) :=
    match e_model e with
    | None => (m, Err BEEPMLExperimentError)
    | Some l =>
        let m := if (match homog with Some b => b | None => l_homogenize (e_settings e) end) then rename strip_hash m else m in
        (m,
         if existsb (fun f => negb (str_in f (m_columns m))) (e_labels e) then Err BEEPMLExperimentError
         else
           let X := drop_rows (predict_thr (e_settings e) * count (m_columns m)) (select (e_labels e) m) in
           let! X := impute (l_impute (e_settings e)) X in
           let dropped := if negb (length (m_rows m) =? length (m_rows X))%nat then filter (fun s => negb (str_in s (m_columns X))) (labels m) else [] in
           if (length (m_rows X) =? 0)%nat then Err ValueError
           else
             let! rows := mapM (fun r => let! x := scaled (e_scaler e) (snd r) in Ok (fst r, map Number (linear_predict l x))) (m_rows X) in
             Ok ({| m_columns := l_targets (e_settings e); m_rows := rows |}, dropped))
    end.

  (** beep/model.py:474-562 as_dict, from_dict: created again from the matrices rebuilt from their featurizers, with
      the saved coefficients *)
  Definition restore (e : experiment) (fm tm : matrix) : result experiment :=
    match e_model e with
    | None => Err ValueError
    | Some l =>
        let! o := create (e_settings e) fm tm in
        Ok {| e_settings := e_settings o; e_features := e_features o; e_target_matrix := e_target_matrix o; e_X := e_X o; e_y := e_y o; e_labels := e_labels o; e_scaler := e_scaler o; e_model := Some l |}
    end.
End Linear.
