(** mimosa/common/regional_params/: regional parameter files, region mapping, overrides.

    Oracle: [disk] is pd.read_csv per file name.  [merge_order] is the row order of pandas' outer merge (it
    sorts by the join keys); only the non-numeric aggregation "first" depends on it.
    Simplifications: cells are python values as read by pandas, an empty cell is nan; column names are
    distinct, and no column of a parameter file is called like a region type; empty cells occur neither in the
    region columns of a mapping nor in the "region" column; sums are exact. *)
From Verif Require Export DataStore.
From Verif Require Import PyBase NestedDict Config.
From Coq Require Export QArith.
Import ListNotations.
Open Scope string_scope.
Open Scope list_scope.

Definition nan : pyval := VFloat FNaN.
Definition is_nan (v : pyval) : bool := match v with VFloat FNaN => true | _ => false end.
(** pd.api.types.is_numeric_dtype of a column with these cells *)
Definition is_number (v : pyval) : bool := match v with VInt _ | VFloat _ => true | _ => false end.

(** The cell of a row in a column *)
Definition cell (t : table) (row : list pyval) (column : string) : result pyval :=
  do n <- index_of column (t_columns t);
  match nth_error row n with Some v => Ok v | None => Err KeyError end.

(** region_mappers.py 23-34 *)
Record mapper := { m_type1 : string; m_type2 : string; m_table : table }.
Definition has_column (t : table) (c : string) : bool := existsb (String.eqb c) (t_columns t).
Definition new_mapper (disk : string -> result table) (type1 type2 file : string) : result mapper :=
  do t <- disk file;
  if negb (has_column t type1) || negb (has_column t type2) then Err KeyError
  else Ok {| m_type1 := type1; m_type2 := type2; m_table := t |}.

(** region_mappers.py 41: the rows (from, to) of the mapping *)
Fixpoint pairs_of (t : table) (from to : string) (rows : list (list pyval)) : result (list (pyval * pyval)) :=
  match rows with
  | [] => Ok []
  | row :: r => do a <- cell t row from; do b <- cell t row to; do l <- pairs_of t from to r; Ok ((a, b) :: l)
  end.

Section Store.
  Variable disk : string -> result table.
  Variable merge_order : list (pyval * list pyval) -> list (pyval * list pyval).

  (** region_mappers.py 40-45: rows (to, cells) of the outer merge.  Rows without a partner are filled
      with nan; [width] is the number of columns of the parameter file (its "region" column is kept here
      and dropped by [mapped_cell]). *)
  Definition matches (data : table) (a : pyval) (row : list pyval) : bool :=
    match cell data row "region" with Ok r => py_eqb r a | Err _ => false end.
  Definition outer_merge (data : table) (pairs : list (pyval * pyval)) : list (pyval * list pyval) :=
    let blank := map (fun _ => nan) (t_columns data) in
    merge_order
      (flat_map (fun ab => match filter (matches data (fst ab)) (t_rows data) with
                           | [] => [(snd ab, blank)]
                           | rows => map (fun row => (snd ab, row)) rows
                           end) pairs
       ++ map (fun row => (nan, row))
              (filter (fun row => negb (existsb (fun ab => matches data (fst ab) row) pairs)) (t_rows data))).

  Definition q_sum (l : list Q) : Q := fold_right Qplus 0 l.
  (** "mean" skips nan; infinities do not occur in files *)
  Definition q_of (v : pyval) : list Q :=
    match v with VInt z => [inject_Z z] | VFloat (FFin q) => [q] | _ => [] end.
  Definition mean (cells : list pyval) : pyval :=
    match flat_map q_of cells with
    | [] => nan
    | l => VFloat (FFin (q_sum l / inject_Z (Z.of_nat (List.length l))))
    end.
  (** "first" skips nan *)
  Definition first (cells : list pyval) : pyval :=
    match find (fun v => negb (is_nan v)) cells with Some v => v | None => nan end.

  (** regional_param_container.py 8-29; the frame is kept symbolically *)
  Inductive container := Direct (data : table) | Mapped (data : table) (pairs : list (pyval * pyval)).
  Definition find_mapper (ms : list ((string * string) * mapper)) (a b : string) : result mapper :=
    match find (fun m => String.eqb (fst (fst m)) a && String.eqb (snd (fst m)) b) (rev ms) with
    | Some (_, m) => Ok m | None => Err KeyError end.
  Definition new_container (file type_in type_out : string) (ms : list ((string * string) * mapper)) : result container :=
    do data <- disk file;
    if String.eqb type_in type_out then
      if has_column data "region" then Ok (Direct data) else Err KeyError
    else
      do m <- find_mapper ms type_in type_out;
      if has_column data "region" then
        do pairs <- pairs_of (m_table m) type_in type_out (t_rows (m_table m));
        Ok (Mapped data pairs)
      else Err KeyError.

  (** data.loc[region, paramname]; "region" itself is the index, not a column.  Several rows make it a
      Series, on which float() is a TypeError. *)
  Definition locate (c : container) (paramname region : string) : result pyval :=
    if String.eqb paramname "region" then Err KeyError else
    match c with
    | Direct data =>
        do n <- index_of paramname (t_columns data);
        match filter (matches data (VStr region)) (t_rows data) with
        | [] => Err KeyError
        | [row] => match nth_error row n with Some v => Ok v | None => Err KeyError end
        | _ => Err TypeError
        end
    | Mapped data pairs =>
        (* region_mappers.py 49-59 *)
        do n <- index_of paramname (t_columns data);
        let merged := outer_merge data pairs in
        let column (rows : list (pyval * list pyval)) := map (fun r => nth n (snd r) nan) rows in
        match filter (fun r => py_eqb (fst r) (VStr region)) merged with
        | [] => Err KeyError
        | group => Ok (if forallb is_number (column merged) then mean (column group) else first (column group))
        end
    end.
  (** regional_param_container.py 31-37 *)
  Definition container_get (c : container) (paramname region : string) : result pyval :=
    do v <- locate c paramname region;
    match py_float v with Ok f => Ok (VFloat f) | Err ValueError => Ok v | Err e => Err e end.

  (** main.py 52-68.  The mapping entries and file entries are the parsed configuration's
      (regionstype1, regionstype2, conversiontable) and (category, (filename, regionstype)). *)
  Fixpoint create_mappers (l : list (string * string * string)) : result (list ((string * string) * mapper)) :=
    match l with
    | [] => Ok []
    | (a, b, f) :: r => do m <- new_mapper disk a b f; do ms <- create_mappers r; Ok (((a, b), m) :: ((b, a), m) :: ms)
    end.
  Fixpoint create_categories (ms : list ((string * string) * mapper)) (type_out : string) (l : list (string * (string * string)))
    : result (list (string * container)) :=
    match l with
    | [] => Ok []
    | (category, (file, type_in)) :: r =>
        do c <- new_container file type_in type_out ms;
        do cs <- create_categories ms type_out r; Ok ((category, c) :: cs)
    end.
  Record store := { st_params : pyval; st_categories : list (string * container) }.
  Definition new_store (params : pyval) (mappings : list (string * string * string)) (type_out : string)
      (files : list (string * (string * string))) : result store :=
    do ms <- create_mappers mappings;
    do cs <- create_categories ms type_out files;
    Ok {| st_params := params; st_categories := cs |}.

  (** main.py 76-83 *)
  Definition file_value (cs : list (string * container)) (category paramname region : string) : result pyval :=
    do c <- assoc category cs; container_get c paramname region.
  Definition getregional (st : store) (category paramname region : string) : result pyval :=
    match get_nested (st_params st) [KStr "regions"; KStr region; KStr category; KStr paramname] with
    | Ok v => Ok v
    | Err KeyError | Err TypeError => file_value (st_categories st) category paramname region
    | Err e => Err e
    end.
  (** main.py 70-74 *)
  Fixpoint get (st : store) (category paramname : string) (regions : list string) : result (list (string * pyval)) :=
    match regions with
    | [] => Ok []
    | r :: rest => do v <- getregional st category paramname r; do l <- get st category paramname rest; Ok ((r, v) :: l)
    end.
End Store.
