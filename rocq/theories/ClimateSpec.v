(** Specification of the damage functions on real numbers, written from the documentation
    (coacch.py doc strings), and names of climate variables. *)
From Verif Require Export ModelSpec SoftFacts.

(** A region's damage function (fraction of GDP): linear, quadratic or logistic, with coefficients in
    percent and a quantile factor [a].  In the logistic form the exponent is capped at 10 by the smooth
    maximum [smax] (C50). *)
Definition damage_curve (d : dmg) (r : region) (x : R) : R :=
  let a := d_a d r in let b1 := d_b1 d r in let b2 := d_b2 d r in let b3 := d_b3 d r in
  if str_contains "Linear" (d_form d r) then a * b1 * x / 100
  else if str_contains "Quadratic" (d_form d r) then a * (b1 * x + b2 * x ^ 2) / 100
  else a * (b1 / (1 + b2 * exp (smax (1/10) (- b3 * x) 10)) - b1 / (1 + b2)) / 100.

Definition is_logistic (d : dmg) (r : region) : Prop :=
  str_contains "Linear" (d_form d r) = false /\ str_contains "Quadratic" (d_form d r) = false.

Definition total_SLR (v : point) := gval v g_total_SLR.
Definition thermal_SLR (v : point) := gval v g_slr_thermal.
Definition glacier_SLR (v : point) := gval v g_slr_cumgsic.
Definition icesheet_SLR (v : point) := gval v g_slr_cumgis.
Definition temperature_damages (v : point) := rval v v_damage_costs_non_slr.
Definition sealevel_damages (v : point) := rval v v_damage_costs_slr.
