(** Property theorems (generated by tools/gen_props.py from the proved lemmas; statements only). *)
From Verif Require Import Model ModelSpec ClimateSpec Build BuildLemmas ClimateLemmas.

Theorem C39_damages_follow_curve : forall p v t r, feasible p v -> dmg_module p = COACCH -> model_step p t -> In r (regions p) ->
  damage_costs v t r = temperature_damages v t r + sealevel_damages v t r /\
  temperature_damages v t r = damage_scale_factor p *
    (damage_curve (dmg_noslr p) r (temperature v t - 6/10) - damage_curve (dmg_noslr p) r (T0 p - 6/10)) /\
  sealevel_damages v t r = damage_scale_factor p *
    (damage_curve (dmg_slr p) r (total_SLR v t) - damage_curve (dmg_slr p) r (total_SLR v 0)) /\
  (t = 0%nat -> temperature_damages v t r = 0 /\ sealevel_damages v t r = 0 /\ damage_costs v t r = 0).
Proof. exact C39_damages_follow_curve_pf. Qed.
Print Assumptions C39_damages_follow_curve.

(** A region with an unknown functional form: the damage rule raises NotImplementedError, the model is
    never built. *)
Theorem C39_unknown_form : forall extra n p t r, dmg_module p = COACCH -> In r (regions p) ->
  ~ (known_form (d_form (dmg_noslr p) r) /\ known_form (d_form (dmg_slr p) r)) ->
  (c_damage_costs_non_slr p t r = Raise NotImplementedError \/ c_damage_costs_slr p t r = Raise NotImplementedError) /\
  (forall comps, build extra n p <> Ok comps) /\ (forall v, ~ feasible p v).
Proof. exact C39_unknown_form_pf. Qed.
Print Assumptions C39_unknown_form.

Theorem C40_no_damage_without_warming : forall d r, ~ is_logistic d r -> damage_curve d r 0 = 0.
Proof. exact C40_no_damage_without_warming_pf. Qed.
Print Assumptions C40_no_damage_without_warming.

Theorem C40_damages_monotone : forall d r x y, 0 <= d_a d r -> 0 <= d_b1 d r ->
  (str_contains "Linear" (d_form d r) = false -> 0 <= d_b2 d r) -> (is_logistic d r -> 0 <= d_b3 d r) ->
  (is_logistic d r \/ str_contains "Linear" (d_form d r) = true \/ 0 <= x) -> x <= y ->
  damage_curve d r x <= damage_curve d r y.
Proof. exact C40_damages_monotone_pf. Qed.
Print Assumptions C40_damages_monotone.

Theorem C40_logistic_bounded : forall d r x, is_logistic d r -> 0 <= d_b2 d r ->
  Rabs (damage_curve d r x) <= Rabs (d_a d r * d_b1 d r) / 100.
Proof. exact C40_logistic_bounded_pf. Qed.
Print Assumptions C40_logistic_bounded.

(** The logistic form does not vanish at zero (the cap of the exponent acts everywhere), but almost. *)
Theorem C40_logistic_not_zero_at_zero_refuted : forall d r, is_logistic d r -> 0 <= d_b2 d r ->
  Rabs (damage_curve d r 0) <= Rabs (d_a d r * d_b1 d r) / 100 * (1 / (250 * PI)) /\
  (d_a d r <> 0 -> d_b1 d r <> 0 -> 0 < d_b2 d r -> damage_curve d r 0 <> 0).
Proof. exact C40_logistic_not_zero_at_zero_refuted_pf. Qed.
Print Assumptions C40_logistic_not_zero_at_zero_refuted.

Theorem C40_no_negative_damages : forall p v t r, feasible p v -> dmg_module p = COACCH -> model_step p t -> In r (regions p) ->
  0 <= damage_scale_factor p ->
  (forall d, d = dmg_noslr p \/ d = dmg_slr p -> 0 <= d_a d r /\ 0 <= d_b1 d r /\ 0 <= d_b2 d r /\ 0 <= d_b3 d r) ->
  6/10 <= T0 p -> 0 <= TCRE p -> total_SLR v 0 <= total_SLR v t ->
  0 <= temperature_damages v t r /\ 0 <= sealevel_damages v t r /\ 0 <= damage_costs v t r.
Proof. exact C40_no_negative_damages_pf. Qed.
Print Assumptions C40_no_negative_damages.

Theorem C40_sealevel_damages_bounded : forall p v t r, feasible p v -> dmg_module p = COACCH -> model_step p t ->
  In r (regions p) -> -5/10 <= sealevel_damages v t r <= 7/10.
Proof. exact C40_sealevel_damages_bounded_pf. Qed.
Print Assumptions C40_sealevel_damages_bounded.

(** ** C41 *)
Theorem C41_sealevel_recursion : forall p v, feasible p v ->
  (thermal_SLR v 0 = 920666936642/10000000000000 + 24076141150722/1000000000000000 * (T0 p / 2 - 920666936642/10000000000000) /\
   glacier_SLR v 0 = 15/1000 /\ icesheet_SLR v 0 = 6/1000) /\
  (forall t, model_step p t -> total_SLR v t = thermal_SLR v t + glacier_SLR v t + icesheet_SLR v t /\
     0 <= thermal_SLR v t /\ 0 <= glacier_SLR v t /\ 0 <= icesheet_SLR v t) /\
  (forall t, model_step p (S t) ->
     thermal_SLR v (S t) = exp (dt p / 10 * ln (1 - 24076141150722/1000000000000000)) * thermal_SLR v t
                           + 24076141150722/1000000000000000 * (dt p / 10) * (temperature v t / 2) /\
     glacier_SLR v (S t) = glacier_SLR v t + 8/10000 * dt p * (1 - glacier_SLR v t / (26/100)) * (temperature v t + 1) /\
     icesheet_SLR v (S t) = icesheet_SLR v t
        + dt p / 1000 * (111860082/100000000 * temperature v t + 6/10) * (1 - icesheet_SLR v t / (73/10))).
Proof. exact C41_sealevel_recursion_pf. Qed.
Print Assumptions C41_sealevel_recursion.

(** Glaciers and ice sheet only lose what they have, and never regrow, as long as the step is not too long
    for the temperature: dt * (T + 1) below 325. *)
Theorem C41_ice_is_limited : forall p v t, feasible p v -> model_step p t -> 0 <= dt p ->
  (forall s, (s < t)%nat -> -1/2 <= temperature v s /\ dt p * (temperature v s + 1) < 325) ->
  15/1000 <= glacier_SLR v t < 26/100 /\ 6/1000 <= icesheet_SLR v t < 73/10 /\
  (forall s, (s < t)%nat -> glacier_SLR v s <= glacier_SLR v (S s) /\ icesheet_SLR v s <= icesheet_SLR v (S s)).
Proof. exact C41_ice_is_limited_pf. Qed.
Print Assumptions C41_ice_is_limited.

(** Beyond that step length the glaciers lose more than their volume. *)
Theorem C41_long_steps_melt_too_much_refuted : forall p v t, feasible p v -> model_step p (S t) ->
  glacier_SLR v t < 26/100 -> 325 < dt p * (temperature v t + 1) -> 26/100 < glacier_SLR v (S t).
Proof. exact C41_long_steps_melt_too_much_refuted_pf. Qed.
Print Assumptions C41_long_steps_melt_too_much_refuted.

Theorem C42_no_damage_mode : forall p v t r, feasible p v -> dmg_module p = nodamage -> model_step p t -> In r (regions p) ->
  damage_costs v t r = 0 /\
  GDP_net v t r = GDP_gross v t r - mitigation_costs v t r - transfer_paid p v t r.
Proof. exact C42_no_damage_mode_pf. Qed.
Print Assumptions C42_no_damage_mode.
