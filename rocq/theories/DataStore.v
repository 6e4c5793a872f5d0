(** mimosa/common/data/datastore.py: the data store, with its process-wide caches.

    Oracles (pandas, pint, scipy): [disk] is pd.read_csv per file name; [unit_factor] the factor of a
    pint conversion of an array (all units involved are multiplicative); [spline] is scipy's cubic
    interp1d, which may raise; [parse_year] python's float() on a column label is PyBase.parse_float_str.
    Simplifications: a file name stands for the file (os.path.join); a table's cells are python values, an
    empty cell is nan, which ends in TypeError here (python would go on with nan values); lower-casing does
    not make two column names equal; a slice from a missing label "2010" is KeyError. *)
From Verif Require Export TimeGrid.
From Verif Require Import PyBase.
From Coq Require Export Qreals.
Import ListNotations.
Open Scope R_scope.
Open Scope string_scope.

Record table := { t_columns : list string; t_rows : list (list pyval) }.
Definition str_lower (s : string) : string := string_of_list_ascii (map lower (list_ascii_of_string s)).
(** 47 *)
Definition lower_columns (t : table) : table := {| t_columns := map str_lower (t_columns t); t_rows := t_rows t |}.

(** database[column]: position of a column *)
Fixpoint index_of (c : string) (l : list string) : result nat :=
  match l with
  | [] => Err KeyError
  | x :: r => if String.eqb x c then Ok 0%nat else do n <- index_of c r; Ok (S n)
  end.
Definition cell_is (row : list pyval) (n : nat) (s : string) : bool :=
  match nth_error row n with Some (VStr x) => String.eqb x s | _ => false end.

(** A datasource as configured (config_default.yaml: input - variables; all five keys are present, see
    DatasourceParser) *)
Record source := { s_variable : string; s_unit : string; s_scenario : string; s_model : string; s_file : string }.

(** 75: region[:-1] if region[-1] == "#" else region; IndexError for an empty name *)
Definition file_region (region : string) : result string :=
  match rev (list_ascii_of_string region) with
  | [] => Err IndexError
  | c :: r => Ok (if Ascii.eqb c "#" then string_of_list_ascii (rev r) else region)
  end.

(** The cached record, 86-90 *)
Record series := { years : list R; cells : list pyval; unit_label : pyval }.
Definition key4 := (string * string * string * string)%type.
Definition key4_eqb (a b : key4) : bool :=
  let '(a1, a2, a3, a4) := a in let '(b1, b2, b3, b4) := b in
  (String.eqb a1 b1 && String.eqb a2 b2 && String.eqb a3 b3 && String.eqb a4 b4)%bool.

Definition year_of (label : string) : result R :=
  match parse_float_str label with Some (FFin q) => Ok (Q2R q) | _ => Err ValueError end.

(** 71-90: the row for a key in a database *)
Definition select (t : table) (k : key4) : result series :=
  let '(model, scenario, region, variablename) := k in
  do c1 <- index_of "model" (t_columns t);
  do c2 <- index_of "scenario" (t_columns t);
  do c3 <- index_of "region" (t_columns t);
  do r <- file_region region;
  do c4 <- index_of "variable" (t_columns t);
  match filter (fun row => cell_is row c1 model && cell_is row c2 scenario && cell_is row c3 r && cell_is row c4 variablename)%bool (t_rows t) with
  | [row] =>
      do n <- index_of "2010" (t_columns t);
      do ys <- map_result year_of (skipn n (t_columns t));
      do u <- index_of "unit" (t_columns t);
      match nth_error row u with
      | Some unit => Ok {| years := ys; cells := skipn n row; unit_label := unit |}
      | None => Err KeyError
      end
  | _ => Err (OtherError "Found {} rows matching criteria instead of one.")
  end.

(** Class attributes 25-26 *)
Record caches := { databases : string -> option table; cached_data : string -> option (key4 -> option series) }.
Definition empty_caches : caches := {| databases := fun _ => None; cached_data := fun _ => None |}.

Section DataStore.
  Variable disk : string -> result table.
  Variable unit_factor : string -> string -> result R.
  Variable spline : list R -> list R -> result (R -> R).

  (** 38-49 *)
  Definition select_database (f : string) (c : caches) : caches * result unit :=
    match databases c f with
    | Some _ => (c, Ok tt)
    | None =>
        match disk f with
        | Err e => (c, Err e)
        | Ok t => ({| databases := fun g => if String.eqb g f then Some (lower_columns t) else databases c g;
                      cached_data := fun g => if String.eqb g f then Some (fun _ => None) else cached_data c g |}, Ok tt)
        end
    end.

  (** 64-91 *)
  Definition get_cached (s : source) (region : string) (c : caches) : caches * result series :=
    let key := (s_model s, s_scenario s, region, s_variable s) in
    match cached_data c (s_file s) with
    | None => (c, Err KeyError)
    | Some m =>
        match m key with
        | Some x => (c, Ok x)
        | None =>
            match databases c (s_file s) with
            | None => (c, Err KeyError)
            | Some t =>
                match select t key with
                | Err e => (c, Err e)
                | Ok x => ({| databases := databases c;
                              cached_data := fun g => if String.eqb g (s_file s)
                                then Some (fun k => if key4_eqb k key then Some x else m k) else cached_data c g |}, Ok x)
                end
            end
        end
    end.

  (** numbers of a row *)
  Definition number (v : pyval) : result R :=
    match v with VInt z => Ok (IZR z) | VFloat (FFin q) => Ok (Q2R q) | _ => Err TypeError end.

  (** 113-114: calling interp1d's result raises ValueError outside the range of the given years *)
  Definition in_range (xs : list R) (y : R) : bool :=
    match xs with
    | [] => false
    | x :: r => if Rle_dec (fold_right Rmin x r) y then if Rle_dec y (fold_right Rmax x r) then true else false else false
    end.
  Definition interpolate (xs ys out : list R) : result (list R) :=
    do f <- spline xs ys;
    if forallb (in_range xs) out then Ok (map f out) else Err ValueError.

  (** 93-114; [x] is the cached record *)
  Definition convert (s : source) (output_years : list R) (x : series) : result (list R) :=
    do raw <- map_result number (cells x);
    match unit_label x with
    | VStr u =>
        do k <- unit_factor u (s_unit s);
        do ext <- extrapolate (map (Rmult k) raw) (years x) extra_years;
        interpolate (years x ++ extra_years)%list ext output_years
    | _ => Err TypeError
    end.
  Definition get_data (output_years : list R) (region : string) (s : source) (c : caches) : caches * result (list R) :=
    let (c, x) := get_cached s region c in
    match x with Err e => (c, Err e) | Ok x => (c, convert s output_years x) end.

  (** 57-62 *)
  Fixpoint create_data_values (output_years : list R) (regions : list string) (s : source) (c : caches)
    : caches * result (list (string * list R)) :=
    match regions with
    | [] => (c, Ok [])
    | r :: rest =>
        let (c, x) := get_data output_years r s c in
        match x with
        | Err e => (c, Err e)
        | Ok v => let (c, y) := create_data_values output_years rest s c in
                  (c, do l <- y; Ok ((r, v) :: l))
        end
    end.

  (** 28-36 *)
  Fixpoint load_variables (output_years : list R) (regions : list string) (vars : list (string * source)) (c : caches)
    : caches * result (list (string * list (string * list R))) :=
    match vars with
    | [] => (c, Ok [])
    | (name, s) :: rest =>
        let (c, u) := select_database (s_file s) c in
        match u with
        | Err e => (c, Err e)
        | Ok _ =>
            let (c, x) := create_data_values output_years regions s c in
            match x with
            | Err e => (c, Err e)
            | Ok v => let (c, y) := load_variables output_years regions rest c in
                      (c, do l <- y; Ok ((name, v) :: l))
            end
        end
    end.

  (** The arguments taken from the parameters *)
  Record store_args := { a_start : R; a_end : R; a_dt : R; a_regions : list string; a_variables : list (string * source) }.
  (** DataStore(params) *)
  Definition data_store (a : store_args) (c : caches) : caches * result (list (string * list (string * list R))) :=
    load_variables (data_years (a_start a) (a_end a) (a_dt a)) (a_regions a) (a_variables a) c.
End DataStore.

(** 116-118 *)
Definition assoc {A} (k : string) (l : list (string * A)) : result A :=
  match find (fun x => String.eqb (fst x) k) l with Some (_, v) => Ok v | None => Err KeyError end.
Definition interp_data (a : store_args) (values : list (string * list (string * list R))) (year : R) (region variable : string) : result R :=
  do l <- assoc variable values;
  do ys <- assoc region l;
  np_interp year (data_years (a_start a) (a_end a) (a_dt a)) ys.
