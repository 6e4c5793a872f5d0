(** The data of simulation mode: mimosa/concrete_model/simulation_mode/utils.py, set_constraints.py 32-52 and
    mimosa.py 101-111.

    Oracles: [disk] is read_csv (utils.py 13-24: pd.read_csv, after glob for a pattern); [spline] is scipy's
    InterpolatedUnivariateSpline, which may raise.
    Simplifications: exact reals; a missing or non-numeric cell is TypeError here (python would go on with nan
    or raise in scipy); column labels are finite years; the cache of files within one call is left out (a file
    does not change meanwhile); the data of all variables are read before the first constraint is made, so that
    only which of two errors is raised first differs. *)
From Verif Require Import PyBase NestedDict Config TimeGrid DataStore RegionalParams Instantiate.
From Verif Require Export SimMode Export.
Import ListNotations.
Open Scope R_scope.
Open Scope string_scope.

(** A data frame: column labels, and rows with their label *)
Record frame := { f_columns : list key; f_rows : list (key * list pyval) }.

(** pd.DataFrame(dict of dicts): the outer keys are the columns, the inner keys the rows in order of first
    appearance; a missing cell is nan.  Anything but dictionaries inside is ValueError here. *)
Definition inner (v : pyval) : result pydict := match v with VDict d => Ok d | _ => Err ValueError end.
Definition add_keys (seen : list key) (d : pydict) : list key :=
  fold_left (fun seen kv => if existsb (key_eqb (fst kv)) seen then seen else seen ++ [fst kv])%list d seen.
Definition frame_of_dict (d : pydict) : result frame :=
  do cols <- map_result (fun kv => inner (snd kv)) d;
  let row r := map (fun c => match dget c r with Some v => v | None => nan end) cols in
  Ok {| f_columns := map fst d; f_rows := map (fun r => (r, row r)) (fold_left add_keys cols []) |}.

(** set_constraints.py 45-50: rows of the variable, without the columns Variable and Unit, indexed by Region *)
Definition region_key (v : pyval) : result key :=
  match v with VStr s => Ok (KStr s) | VInt z => Ok (KInt z) | _ => Err (OtherError "row label not modelled") end.
Definition kept_column (c : string) : bool :=
  negb (String.eqb c "Variable" || String.eqb c "Unit" || String.eqb c "Region").
Definition kept_cells (columns : list string) (row : list pyval) : list pyval :=
  map snd (filter (fun cv => kept_column (fst cv)) (combine columns row)).
Definition frame_of_table (t : table) (variable : string) : result frame :=
  do n <- index_of "Variable" (t_columns t);
  do m <- index_of "Region" (t_columns t);
  do rows <- map_result (fun row => do r <- region_key (nth m row nan); Ok (r, kept_cells (t_columns t) row))
               (filter (fun row => cell_is row n variable) (t_rows t));
  Ok {| f_columns := map KStr (filter kept_column (t_columns t)); f_rows := rows |}.

(** float() of a column label *)
Definition label_year (k : key) : result R := match k with KInt z => Ok (IZR z) | KStr s => year_of s end.

Section SimData.
  Variable disk : string -> result table.
  Variable spline : list R -> list R -> result (R -> R).

  (** utils.py 40-49 *)
  Definition extra_sim_years (last : R) : list R := arange (last + 5) 2151 5.
  Definition interp (columns : list key) (cells : list pyval) : result (R -> R) :=
    do values <- map_result number cells;
    do years <- map_result label_year columns;
    match rev years with
    | [] => Err IndexError
    | last :: _ =>
        do new_values <- extrapolate values years (extra_sim_years last);
        spline (years ++ extra_sim_years last)%list new_values
    end.
  (** utils.py 33-38; a row label that occurs twice keeps its last row *)
  Definition interpolating (f : frame) : result (list (key * (R -> R))) :=
    match rev (f_columns f) with
    | [] => Err IndexError
    | last :: _ =>
        do _ <- label_year last;
        map_result (fun row => do g <- interp (f_columns f) (snd row); Ok (fst row, g)) (f_rows f)
    end.
  (** utils.py 51-55 *)
  Definition get_region (fs : list (key * (R -> R))) (r : string) : option (R -> R) :=
    match find (fun x => key_eqb (fst x) (KStr r)) (rev fs) with Some x => Some (snd x) | None => None end.

  (** set_constraints.py 32-52 *)
  Definition get_interp_data (variable : string) (v : pyval) : result (region -> option (R -> R)) :=
    do f <- match v with
            | VDict d => frame_of_dict d
            | VStr path => do t <- disk path; frame_of_table t variable
            | _ => Err TypeError
            end;
    do fs <- interpolating f;
    Ok (get_region fs).

  (** mimosa.py 105-109 with set_constraints.py 20-24 and deactivate_constraints.py 7-9; the "simulation" section is
      always present in checked parameters *)
  Definition str_of (v : pyval) : result string := match v with VStr s => Ok s | _ => Err TypeError end.
  Definition sim_of (params : pyval) : result (option sim_settings) :=
    do mode <- config params ["simulation"; "simulationmode"];
    if py_truth mode then
      do cv <- config params ["simulation"; "constraint_variables"];
      do cv <- items cv;
      do fixed <- map_result (fun kv => do d <- get_interp_data (fst kv) (snd kv); Ok (fst kv, d)) cv;
      do dc <- config params ["simulation"; "deactivated_constraints"];
      do dc <- as_list dc;
      do names <- map_result str_of dc;
      Ok (Some {| sim_fixed := fixed; sim_deactivated := names |})
    else Ok None.
End SimData.

(** The file written by save (save.py 23-37), as pandas reads it back: [sixg] prints a number with six
    significant digits and reads it. *)
Definition saved_row (sixg : R -> Q) (r : row) : list pyval :=
  ([VStr (r_variable r); VStr (r_region r); VStr (r_unit r)] ++ map (fun x => VFloat (FFin (sixg x))) (r_values r))%list.
Definition saved_table (p : pars) (unit_of : string -> string) (rnd : R -> Z) (sixg : R -> Q) (v : point) : table :=
  {| t_columns := columns rnd p; t_rows := map (saved_row sixg) (rows p unit_of v) |}.
