(** Property theorems (generated by tools/gen_props.py from the proved lemmas; statements only). *)
From Verif Require Import Model ModelSpec ClimateSpec Build BuildLemmas DefinedFacts Simulate SimFacts ExistSpec ExistLemmas ExistExo.

(** With prescribed baseline emissions: for every abatement path there is an assignment of all variables that
    satisfies every equation; it is a solution of the model exactly if it respects the policy limits and bounds. *)
Theorem C52_every_path_simulates : forall p a level,
  numeric_ranges p -> sound_data p -> usable_choices p -> slr_logistic_ok p -> 0 <= alpha p < 1 ->
  use_carbon_intensity p = false -> (forall r, In r (regions p) -> a 0%nat r = 0) ->
  exists v, (forall t r, relative_abatement v t r = a t r) /\ (forall t, effort_level v t = level t) /\ equations_hold p v /\
    (feasible p v <-> within_limits p v).
Proof. exact C52_every_path_simulates_pf. Qed.
Print Assumptions C52_every_path_simulates.

(** With baseline emissions that follow the model's own GDP (the default), all steps are implicit equations; a
    solution exists as long as damages cannot exceed the whole GDP at any temperature the economy can reach. *)
Theorem C52_every_path_simulates_endogenous : forall p a level kap Tmax Kb Cb,
  numeric_ranges p -> sound_data p -> usable_choices p -> slr_logistic_ok p -> 0 <= alpha p < 1 ->
  use_carbon_intensity p = true ->
  (forall t r, model_step p t -> In r (regions p) -> 0 <= baseline_emissions p t r) ->
  (forall r, In r (regions p) -> 0 <= MAC_scaling p r) -> 0 <= MAC_gamma p -> 0 <= T0 p -> 0 <= TCRE p ->
  1 <= kap -> envelope p kap Kb Cb -> (forall t, model_step p t -> T0 p + TCRE p * Cb t <= Tmax) ->
  dt p * (Tmax + 1) < 325 ->
  (dmg_module p = COACCH -> ignore_damages p = false -> forall r x y, In r (regions p) ->
     T0 p <= x <= Tmax -> 0 <= y <= sea_level_ceiling p Tmax -> 1 - kap <= damages_at p r x y <= 1) ->
  (forall r, In r (regions p) -> a 0%nat r = 0) ->
  (forall t r, model_step p t -> In r (regions p) -> 0 <= a t r <= 1) ->
  exists v, (forall t r, relative_abatement v t r = a t r) /\ (forall t, effort_level v t = level t) /\ equations_hold p v /\
    (feasible p v <-> within_limits p v) /\
    forall t, model_step p t -> T0 p <= temperature v t <= Tmax /\ 0 <= global_emissions v t /\ 0 <= cumulative_emissions v t <= Cb t /\
      0 <= thermal_SLR v t /\ 0 <= glacier_SLR v t /\ 0 <= icesheet_SLR v t /\ total_SLR v t <= sea_level_ceiling p Tmax.
Proof. exact C52_every_path_simulates_endogenous_pf. Qed.
Print Assumptions C52_every_path_simulates_endogenous.

Theorem C52_no_policy_run_exists : forall p kap Tmax Kb Cb,
  numeric_ranges p -> sound_data p -> usable_choices p -> slr_logistic_ok p -> 0 <= alpha p < 1 ->
  use_carbon_intensity p = true -> no_limits p ->
  (forall t r, model_step p t -> In r (regions p) -> 0 <= baseline_emissions p t r) ->
  (forall r, In r (regions p) -> 0 <= MAC_scaling p r) -> 0 <= MAC_gamma p -> 0 <= T0 p -> 0 <= TCRE p ->
  1 <= kap -> envelope p kap Kb Cb -> (forall t, model_step p t -> T0 p + TCRE p * Cb t <= Tmax) ->
  dt p * (Tmax + 1) < 325 ->
  (dmg_module p = COACCH -> forall r x y, In r (regions p) ->
     T0 p <= x <= Tmax -> 0 <= y <= sea_level_ceiling p Tmax ->
     (ignore_damages p = false -> 1 - kap <= damages_at p r x y <= 1) /\ -5/10 <= damages_at p r (T0 p) y <= 7/10 /\
     (transfer p = globaldamagepool -> 0 <= damages_at p r x y)) ->
  exists v, feasible p v /\
    (forall t r, model_step p t -> In r (regions p) -> relative_abatement v t r = 0 /\ mitigation_costs v t r = 0 /\
       ((1 <= t)%nat -> regional_emissions v t r = baseline v t r)) /\
    forall t, model_step p t -> T0 p <= temperature v t <= Tmax.
Proof. exact C52_no_policy_run_exists_pf. Qed.
Print Assumptions C52_no_policy_run_exists.

Theorem C52_baseline_run_exists : forall p Tmax,
  numeric_ranges p -> sound_data p -> usable_choices p -> slr_logistic_ok p -> 0 <= alpha p < 1 ->
  use_carbon_intensity p = false -> no_limits p ->
  (global_min_level p <> None \/ regional_min_level p <> None -> forall t r, model_step p t -> In r (regions p) -> 0 <= baseline_emissions p t r) ->
  0 <= MAC_gamma p -> 0 <= T0 p -> 0 <= TCRE p ->
  (forall t, model_step p t -> 0 <= baseline_cumulative p t /\ T0 p + TCRE p * baseline_cumulative p t <= Tmax) ->
  dt p * (Tmax + 1) < 325 ->
  (dmg_module p = COACCH -> forall r x y, In r (regions p) ->
     T0 p <= x <= Tmax -> 0 <= y <= sea_level_ceiling p Tmax ->
     -5/10 <= damages_at p r (T0 p) y <= 7/10 /\ (transfer p = globaldamagepool -> 0 <= damages_at p r x y)) ->
  exists v, feasible p v /\
    (forall t r, model_step p t -> In r (regions p) -> relative_abatement v t r = 0 /\ mitigation_costs v t r = 0 /\
       regional_emissions v t r = baseline_emissions p t r) /\
    forall t, model_step p t -> cumulative_emissions v t = baseline_cumulative p t /\ temperature v t = T0 p + TCRE p * baseline_cumulative p t.
Proof. exact C52_baseline_run_exists_pf. Qed.
Print Assumptions C52_baseline_run_exists.
