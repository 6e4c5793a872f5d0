(** Property theorems (generated by tools/gen_props.py from the proved lemmas; statements only). *)
From Verif Require Import PyBase NestedDict Parsers Config ConfigDefault ConfigSpec TimeGrid DataStore DataStoreLemmas RegionalParams Instantiate InstFacts InstantiateLemmas BundledData BundledFacts BundledSigns Model ModelSpec Build BuildLemmas DefinedFacts Loading LoadingLemmas LoadingExist EndToEnd.
From Coq Require Import QArith Qreals Permutation Reals.
Import ListNotations.
Open Scope string_scope.
Open Scope list_scope.
Open Scope R_scope.

(** With the shipped files, whatever was constructed before: an accepted configuration with real numbers, a horizon within 2010-2200, some of
    the 26 regions and depreciation below 1 gives an instance and a model; if the baselines are positive, the model is built exactly when
    the configuration is usable. *)
Theorem C61_builds_iff_usable : forall o mo uf sp h user raw params tree d start stop,
  accepted o user raw params tree -> default_inputs user -> plain_quantities raw -> real_numbers params -> (forall name, ~ customised params name) ->
  lookup params ["regions"] = Some (VDict d) -> d <> [] -> no_own_values d -> (forall k x, In (k, x) d -> exists r, k = KStr r /\ In r image_regions) ->
  number_at params ["time"; "start"] start -> number_at params ["time"; "end"] stop -> (2010 <= start)%Q -> (start <= stop)%Q -> (stop <= 2200)%Q ->
  (forall x, number_in params ["economics"; "GDP"; "depreciation of capital"] x -> x < 1) ->
  prints_quantiles o -> rejects_false o -> (forall l, Permutation l (mo l)) -> units_known uf -> spline_defined sp ->
  (forall disk a, In (disk, a) h -> disk = bundled) ->
  exists inst, construct o bundled mo uf sp (after uf sp h empty_caches) user = Ok inst /\ i_params inst = params /\ (exists p, loads inst p) /\
    forall p, loads inst p -> positive_baselines p ->
      numeric_ranges p /\ sound_data p /\ slr_logistic_ok p /\
      forall extra n, (exists comps, build extra n p = Ok comps) <-> usable_configuration o params (Q2R start) (Q2R stop) (dt p).
Proof. exact C61_builds_iff_usable_pf. Qed.
Print Assumptions C61_builds_iff_usable.

(** The shipped data have positive baselines at such decades, also in the model. *)
Theorem C61_decade_baselines : forall o mo uf sp h user inst ssp p,
  distinct_keys user -> default_inputs user -> (forall disk a, In (disk, a) h -> disk = bundled) -> through_points sp -> positive_units uf ->
  construct o bundled mo uf sp (after uf sp h empty_caches) user = Ok inst -> (forall name, ~ customised (i_params inst) name) -> loads inst p ->
  lookup (i_params inst) ["SSP"] = Some (VStr ssp) -> a_start (i_args inst) <= a_end (i_args inst) -> 0 < dt p ->
  regions p <> [] -> (forall r, In r (regions p) -> In r image_regions) -> positive_decades ssp p ->
  positive_baselines p.
Proof. exact C61_decade_baselines_pf. Qed.
Print Assumptions C61_decade_baselines.

(** With such a horizon nothing about the baselines is left to assume. *)
Theorem C61_whole_decades : forall o mo uf sp h user raw params tree d start stop,
  accepted o user raw params tree -> default_inputs user -> plain_quantities raw -> real_numbers params -> (forall name, ~ customised params name) ->
  lookup params ["regions"] = Some (VDict d) -> d <> [] -> no_own_values d -> (forall k x, In (k, x) d -> exists r, k = KStr r /\ In r image_regions) ->
  number_at params ["time"; "start"] start -> number_at params ["time"; "end"] stop -> (2010 <= start)%Q -> (start <= stop)%Q -> (stop <= 2200)%Q ->
  (forall x, number_in params ["economics"; "GDP"; "depreciation of capital"] x -> x < 1) -> whole_decades params start -> no_negative_emissions params stop ->
  prints_quantiles o -> rejects_false o -> (forall l, Permutation l (mo l)) -> units_known uf -> positive_units uf -> spline_defined sp -> through_points sp ->
  (forall disk a, In (disk, a) h -> disk = bundled) ->
  exists inst, construct o bundled mo uf sp (after uf sp h empty_caches) user = Ok inst /\ i_params inst = params /\ (exists p, loads inst p) /\
    forall p extra n, loads inst p ->
      ((exists comps, build extra n p = Ok comps) <-> usable_configuration o params (Q2R start) (Q2R stop) (dt p)).
Proof. exact C61_whole_decades_pf. Qed.
Print Assumptions C61_whole_decades.
