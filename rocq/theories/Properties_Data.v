(** Property theorems (generated by tools/gen_props.py from the proved lemmas; statements only). *)
From Verif Require Import PyBase TimeGrid TimeGridLemmas DataStore DataStoreLemmas DataRows.
Import ListNotations.
Open Scope R_scope.
Open Scope string_scope.

(** If the files do not change, a data store gets the same result (values or exception) after any
    history, successes and failures alike, as in a fresh process. *)
Theorem C14_cache_transparent : forall uf sp disk h a, (forall d b, In (d, b) h -> d = disk) ->
  snd (data_store disk uf sp a (after uf sp h empty_caches)) = snd (data_store disk uf sp a empty_caches).
Proof. exact C14_cache_transparent_pf. Qed.
Print Assumptions C14_cache_transparent.

(** What a store holds: for every configured variable and region, the converted series of the one matching
    row of the file on disk (or of the version of the file read first in this process). *)
Theorem C14_store_holds_file_data : forall uf sp disk h a out name s values r v,
  NoDup (map fst (a_variables a)) ->
  snd (data_store disk uf sp a (after uf sp h empty_caches)) = Ok out ->
  In (name, s) (a_variables a) -> In (name, values) out -> In (r, v) values ->
  map fst values = a_regions a /\
  exists t x, (disk (s_file s) = Ok t \/ exists d b, In (d, b) h /\ d (s_file s) = Ok t) /\
    in_file t s r = Ok x /\ convert uf sp s (data_years (a_start a) (a_end a) (a_dt a)) x = Ok v.
Proof. exact C14_store_holds_file_data_pf. Qed.
Print Assumptions C14_store_holds_file_data.

(** A file that was read once is never read again: later changes of it on disk have no effect in this process. *)
Theorem C14_first_version_wins : forall uf sp h c disk disk' a, c = after uf sp h empty_caches ->
  (forall f, ~ loaded c f -> disk f = disk' f) ->
  snd (data_store disk uf sp a c) = snd (data_store disk' uf sp a c).
Proof. exact C14_first_version_wins_pf. Qed.
Print Assumptions C14_first_version_wins.

(** A store can only be created for horizons covered by the data: some year of the series (or of its
    extrapolation, 2110 to 2250) lies at or before the start year, and one at or after the last requested
    year.  With the bundled files (2010-2100) a start before 2010, or an end after 2200 + dt, fails with
    ValueError although the configuration accepts 1900-2100 and 1901-2300. *)
Theorem C12_horizon_must_be_covered : forall uf sp disk h a out name s r v values,
  NoDup (map fst (a_variables a)) -> 0 < a_dt a <= 20 -> a_start a <= a_end a ->
  snd (data_store disk uf sp a (after uf sp h empty_caches)) = Ok out ->
  In (name, s) (a_variables a) -> In (name, values) out -> In (r, v) values ->
  exists t x, in_file t s r = Ok x /\
    (exists y, In y (years x ++ extra_years) /\ y <= a_start a) /\
    (exists y, In y (years x ++ extra_years) /\ a_end a + 50 - a_dt a <= y) /\
    ((forall y, In y (years x) -> 2010 <= y <= 2100) -> 2010 <= a_start a /\ a_end a <= 2200 + a_dt a).
Proof. exact C12_horizon_must_be_covered_pf. Qed.
Print Assumptions C12_horizon_must_be_covered.

(** In the model years that are years of the file, the model gets exactly the file's number (converted to
    the configured unit): splines pass through their points, and the rest of the chain is exact. *)
Theorem C12_file_years_exact : forall uf sp disk h a out name s r,
  through_points sp -> NoDup (map fst (a_variables a)) -> NoDup (a_regions a) -> 0 < a_dt a <= 20 -> a_start a <= a_end a ->
  snd (data_store disk uf sp a (after uf sp h empty_caches)) = Ok out ->
  In (name, s) (a_variables a) -> In r (a_regions a) ->
  exists t x raw u k, in_file t s r = Ok x /\ map_result number (cells x) = Ok raw /\ unit_label x = VStr u /\
    uf u (s_unit s) = Ok k /\
    (List.length (cells x) = List.length (years x) ->
     forall step j, In step (model_steps (a_start a) (a_end a) (a_dt a)) -> (j < List.length (years x))%nat ->
       nth j (years x) 0 = year_at (a_start a) (a_dt a) step ->
       interp_data a out (year_at (a_start a) (a_dt a) step) r name = Ok (k * nth j raw 0)).
Proof. exact C12_file_years_exact_pf. Qed.
Print Assumptions C12_file_years_exact.

(** A store is only created if, for every configured variable and every region, exactly one row of the
    variable's file carries the configured model, scenario and variable and the region's name; the region's
    values are that row's numbers (columns from "2010" on) in that row's unit, converted and interpolated. *)
Theorem C14_configured_row : forall uf sp disk h a out name s r,
  NoDup (map fst (a_variables a)) ->
  snd (data_store disk uf sp a (after uf sp h empty_caches)) = Ok out ->
  In (name, s) (a_variables a) -> In r (a_regions a) ->
  exists t l1 row l2 x values v, (disk (s_file s) = Ok t \/ exists d b, In (d, b) h /\ d (s_file s) = Ok t) /\
    t_rows t = (l1 ++ row :: l2)%list /\ describes t s r row /\ (forall other, In other (l1 ++ l2)%list -> ~ describes t s r other) /\
    series_of_row t row x /\ In (name, values) out /\ In (r, v) values /\
    convert uf sp s (data_years (a_start a) (a_end a) (a_dt a)) x = Ok v.
Proof. exact C14_configured_row_pf. Qed.
Print Assumptions C14_configured_row.

(** Several rows that could be meant, or none, are refused. *)
Theorem C14_ambiguous_row_refused : forall uf sp disk a out name s r t,
  NoDup (map fst (a_variables a)) -> In (name, s) (a_variables a) -> In r (a_regions a) -> disk (s_file s) = Ok t ->
  (forall row, In row (t_rows t) -> ~ describes t s r row) \/
  (exists l1 row l2 row' l3, t_rows t = (l1 ++ row :: l2 ++ row' :: l3)%list /\ describes t s r row /\ describes t s r row') ->
  snd (data_store disk uf sp a empty_caches) <> Ok out.
Proof. exact C14_ambiguous_row_refused_pf. Qed.
Print Assumptions C14_ambiguous_row_refused.
