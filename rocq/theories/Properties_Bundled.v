(** Property theorems (generated by tools/gen_props.py from the proved lemmas; statements only). *)
From Verif Require Import PyBase NestedDict Parsers Config ConfigDefault ConfigSpec TimeGrid DataStore DataStoreLemmas RegionalParams Instantiate InstFacts InstantiateLemmas BundledData BundledFacts BundledSigns.
From Coq Require Import QArith Permutation Reals.
Import ListNotations.
Open Scope string_scope.
Open Scope list_scope.
Open Scope R_scope.

Theorem C57_bundled_constructs : forall o mo uf sp h user raw params tree d start stop,
  accepted o user raw params tree -> default_inputs user -> plain_quantities raw ->
  lookup params ["regions"] = Some (VDict d) -> (forall k x, In (k, x) d -> exists r, k = KStr r /\ In r image_regions) ->
  number_at params ["time"; "start"] start -> number_at params ["time"; "end"] stop -> (2010 <= start)%Q -> (stop <= 2200)%Q ->
  lookup params ["time"; "dt"] <> Some (VFloat FNaN) ->
  prints_quantiles o -> (forall l, Permutation l (mo l)) -> units_known uf -> spline_defined sp ->
  (forall disk a, In (disk, a) h -> disk = bundled) ->
  exists inst, construct o bundled mo uf sp (after uf sp h empty_caches) user = Ok inst /\ i_params inst = params /\ i_tree inst = tree.
Proof. exact C57_bundled_constructs_pf. Qed.
Print Assumptions C57_bundled_constructs.

Theorem C58_bundled_signs : forall o mo uf sp h user inst ssp,
  distinct_keys user -> default_inputs user -> (forall disk a, In (disk, a) h -> disk = bundled) ->
  through_points sp -> positive_units uf ->
  construct o bundled mo uf sp (after uf sp h empty_caches) user = Ok inst ->
  lookup (i_params inst) ["SSP"] = Some (VStr ssp) -> a_start (i_args inst) <= a_end (i_args inst) ->
  forall t region j, In t (model_steps (a_start (i_args inst)) (a_end (i_args inst)) (a_dt (i_args inst))) ->
    In region (i_regions inst) -> In region image_regions -> (j < 25)%nat ->
    year_at (a_start (i_args inst)) (a_dt (i_args inst)) t = IZR (decade j) ->
  (forall name, In name ["baseline_GDP"; "population"] -> ~ customised (i_params inst) name ->
     exists l x, assoc name (i_data inst) = Ok (ByTimeAndRegion l) /\ In ((t, region), x) l /\ 0 < x) /\
  (~ customised (i_params inst) "baseline_emissions" ->
     exists l x, assoc "baseline_emissions" (i_data inst) = Ok (ByTimeAndRegion l) /\ In ((t, region), x) l /\
       if negative_at ssp region (decade j) then x < 0 else 0 < x).
Proof. exact C58_bundled_signs_pf. Qed.
Print Assumptions C58_bundled_signs.
