(** Property theorems (generated by tools/gen_props.py from the proved lemmas; statements only). *)
From Verif Require Import PyBase TimeGrid TimeGridLemmas.
Import ListNotations.
Open Scope R_scope.

(** The number of steps, when the horizon is not empty. *)
Theorem C11_grid_covers_horizon : forall start stop dt, 0 < dt -> start <= stop ->
  exists tf : nat,
    model_steps start stop dt = seq 0 (S tf) /\ num_years start stop dt = (Z.of_nat tf + 1)%Z /\
    year_at start dt 0 = start /\
    stop <= year_at start dt tf < stop + dt /\
    (forall t, (t < tf)%nat -> year_at start dt t < stop) /\
    (forall t, year_at start dt (S t) - year_at start dt t = dt).
Proof. exact C11_grid_covers_horizon_pf. Qed.
Print Assumptions C11_grid_covers_horizon.

(** End before start is accepted by the configuration; the horizon is then empty, or the single step
    [start] when the end year is less than one step earlier. *)
Theorem C11_end_before_start : forall start stop dt, 0 < dt -> stop < start ->
  (dt <= start - stop -> model_steps start stop dt = []) /\
  (start - stop < dt -> model_steps start stop dt = [0%nat]).
Proof. exact C11_end_before_start_pf. Qed.
Print Assumptions C11_end_before_start.

(** The step of the year 2100: the last one not after 2100. *)
Theorem C11_year2100 : forall start dt, 0 < dt -> start <= 2100 ->
  exists n : nat, year2100 start dt = Z.of_nat n /\ year_at start dt n <= 2100 < year_at start dt (S n).
Proof. exact C11_year2100_pf. Qed.
Print Assumptions C11_year2100.

(** At the i-th node, linear interpolation returns the i-th value. *)
Theorem C12_interpolation_exact_at_nodes : forall xs ys i, increasing xs -> List.length ys = List.length xs ->
  (i < List.length xs)%nat -> np_interp (nth i xs 0) xs ys = Ok (nth i ys 0).
Proof. exact C12_interpolation_exact_at_nodes_pf. Qed.
Print Assumptions C12_interpolation_exact_at_nodes.

(** Every model step's year is a node of the data grid, so the data store's own value for that year is
    what the model gets, whatever the values at other years. *)
Theorem C12_model_years_are_data_years : forall start stop dt t values, 0 < dt <= 20 -> start <= stop ->
  In t (model_steps start stop dt) -> List.length values = List.length (data_years start stop dt) ->
  nth t (data_years start stop dt) 0 = year_at start dt t /\
  np_interp (year_at start dt t) (data_years start stop dt) values = Ok (nth t values 0).
Proof. exact C12_model_years_are_data_years_pf. Qed.
Print Assumptions C12_model_years_are_data_years.

(** The first and last year for which data are requested. *)
Theorem C12_requested_years : forall start stop dt, 0 < dt <= 20 -> start <= stop ->
  nth 0 (data_years start stop dt) 0 = start /\
  exists last, last = nth (List.length (data_years start stop dt) - 1) (data_years start stop dt) 0 /\
    stop + 50 - dt <= last < stop + 50 /\ Forall (fun y => start <= y <= last) (data_years start stop dt).
Proof. exact C12_requested_years_pf. Qed.
Print Assumptions C12_requested_years.

(** Data inside the file are unchanged, one value is added per extra year. *)
Theorem C13_data_unchanged : forall values years extra out, extrapolate values years extra = Ok out ->
  firstn (List.length values) out = values /\ List.length out = (List.length values + List.length extra)%nat.
Proof. exact C13_data_unchanged_pf. Qed.
Print Assumptions C13_data_unchanged.

(** It fails only for series with fewer than two values. *)
Theorem C13_total : forall values years extra, (2 <= List.length values)%nat -> List.length years = List.length values ->
  exists out, extrapolate values years extra = Ok out.
Proof. exact C13_total_pf. Qed.
Print Assumptions C13_total.

(** Beyond the file, the series moves in the direction of its last change, and stops at 2150. *)
Theorem C13_monotone_then_constant : forall values years extra out,
  (2 <= List.length values)%nat -> List.length years = List.length values -> increasing (years ++ extra) ->
  extrapolate values years extra = Ok out ->
  let n := List.length values in
  forall i, (n <= i < n + List.length extra)%nat ->
  (nth (n - 2) out 0 <= nth (n - 1) out 0 -> nth (i - 1) out 0 <= nth i out 0) /\
  (nth (n - 1) out 0 <= nth (n - 2) out 0 -> nth i out 0 <= nth (i - 1) out 0) /\
  (2150 <= nth (i - 1) (years ++ extra) 0 -> nth i out 0 = nth (i - 1) out 0).
Proof. exact C13_monotone_then_constant_pf. Qed.
Print Assumptions C13_monotone_then_constant.

(** If the file reaches 2100, the extrapolated yearly change never exceeds the last one in the file. *)
Theorem C13_growth_bounded : forall values years extra out,
  (2 <= List.length values)%nat -> List.length years = List.length values -> increasing (years ++ extra) ->
  extrapolate values years extra = Ok out ->
  let n := List.length values in
  let rate i := (nth i out 0 - nth (i - 1) out 0) / (nth i (years ++ extra) 0 - nth (i - 1) (years ++ extra) 0) in
  2100 <= nth (n - 1) (years ++ extra) 0 ->
  forall i, (n <= i < n + List.length extra)%nat -> Rabs (rate i) <= Rabs (rate (n - 1)%nat).
Proof. exact C13_growth_bounded_pf. Qed.
Print Assumptions C13_growth_bounded.

(** If the file ends before 2100 (as the output of an earlier run may), the first extrapolated change is
    larger than the last one in the file, by the factor 1 + (2100 - last year)/50. *)
Theorem C13_early_end_amplified : forall values years extra out,
  (2 <= List.length values)%nat -> List.length years = List.length values -> increasing (years ++ extra) ->
  extrapolate values years extra = Ok out -> (0 < List.length extra)%nat ->
  let n := List.length values in
  let rate i := (nth i out 0 - nth (i - 1) out 0) / (nth i (years ++ extra) 0 - nth (i - 1) (years ++ extra) 0) in
  let last := nth (n - 1) (years ++ extra) 0 in
  last <= 2100 -> rate n = (1 + (2100 - last) / 50) * rate (n - 1)%nat.
Proof. exact C13_early_end_amplified_pf. Qed.
Print Assumptions C13_early_end_amplified.

(** The bundled data end in 2100: 30 years' worth of the last change is added until 2150, nothing after. *)
Theorem C13_bundled_files : forall m v0 v1 my y0,
  exists a b c d,
  extrapolate (m ++ [v0; v1]) (my ++ [y0; 2100]) extra_years
  = Ok ((m ++ [v0; v1]) ++ [a; b; c; d] ++ repeat (v1 + 30 * ((v1 - v0) / (2100 - y0))) 11)%list.
Proof. exact C13_bundled_files_pf. Qed.
Print Assumptions C13_bundled_files.
