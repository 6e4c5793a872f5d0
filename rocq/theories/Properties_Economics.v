(** Property theorems (generated by tools/gen_props.py from the proved lemmas; statements only). *)
From Verif Require Import Model ModelSpec SoftFacts EconLemmas.

Theorem C30_accounting : forall p v t r, feasible p v -> model_step p t -> In r (regions p) ->
  GDP_net v t r = GDP_gross v t r - (if ignore_damages p then 0 else damage_costs v t r * GDP_gross v t r)
                  - mitigation_costs v t r - transfer_paid p v t r /\
  mitigation_costs v t r = area_under_MAC v t r + imported_costs p v t r /\
  investments v t r = sr p * GDP_net v t r /\
  consumption v t r + investments v t r = GDP_net v t r.
Proof. exact C30_accounting_pf. Qed.
Print Assumptions C30_accounting.

Theorem C30_global_accounting : forall p v t, feasible p v -> model_step p t ->
  total p (consumption v t) + total p (investments v t) = total p (GDP_net v t) /\
  total p (investments v t) = sr p * total p (GDP_net v t).
Proof. exact C30_global_accounting_pf. Qed.
Print Assumptions C30_global_accounting.

Theorem C31_capital_positive : forall p v t r, feasible p v -> model_step p t -> In r (regions p) ->
  0 < dt p -> 0 <= dk p < 1 -> 0 < init_capital_factor p r -> 0 < baseline_GDP p 0 r ->
  (forall s, (0 < s <= t)%nat -> 0 <= investments v s r) -> 0 < capital_stock v t r.
Proof. exact C31_capital_positive_pf. Qed.
Print Assumptions C31_capital_positive.

Theorem C31_GDP_positive : forall p v t r, feasible p v -> model_step p t -> In r (regions p) ->
  0 < dt p -> 0 <= dk p < 1 -> 0 <= sr p -> positive_data p -> 0 < GDP_gross v t r.
Proof. exact C31_GDP_positive_pf. Qed.
Print Assumptions C31_GDP_positive.

Theorem C32_calibration : forall p t r, 0 < dt p -> 0 <= dk p < 1 -> 0 <= sr p -> positive_data p ->
  In r (regions p) -> model_step p t ->
  TFP p t r * Rpower (population p t r) (1 - alpha p) * Rpower (TFP_capital p t r) (alpha p)
  = baseline_GDP p t r.
Proof. exact C32_calibration_pf. Qed.
Print Assumptions C32_calibration.

(** The production function at the model's capital stock therefore returns baseline GDP exactly when the
    smoothed capital equals the calibration capital. *)
Theorem C32_reproduction_iff_capital : forall p v t r, feasible p v -> (0 < t)%nat -> model_step p t ->
  In r (regions p) -> 0 < dt p -> 0 <= dk p < 1 -> 0 <= sr p -> positive_data p -> 0 < alpha p ->
  (GDP_gross v t r = baseline_GDP p t r <-> smin 10 (capital_stock v t r) = TFP_capital p t r).
Proof. exact C32_reproduction_iff_capital_pf. Qed.
Print Assumptions C32_reproduction_iff_capital.

(** "A run without policy and damages reproduces baseline GDP" fails: in a stationary economy (constant
    baseline GDP, initial capital at its steady state) gross GDP cannot equal baseline GDP in any year in
    which nothing is deducted from it. *)
Theorem C32_baseline_run_refuted : forall p v r, feasible p v -> (1 <= tf p)%nat -> In r (regions p) ->
  0 < dt p -> 0 <= dk p < 1 -> 0 <= sr p -> positive_data p -> 0 < alpha p ->
  baseline_GDP p 1 r = baseline_GDP p 0 r ->
  init_capital_factor p r * (1 - survival p) = dt p * sr p ->
  GDP_net v 1 r = GDP_gross v 1 r -> GDP_gross v 1 r <> baseline_GDP p 1 r.
Proof. exact C32_baseline_run_refuted_pf. Qed.
Print Assumptions C32_baseline_run_refuted.
