(** Small vocabulary for stating properties of feasible solutions, independent of how the
    constraints are written. *)
From Verif Require Export Model Setters.

(** Sum over the regions of the model. *)
Definition total (p : pars) (f : region -> R) : R := Rsum f (regions p).

(** Sum over the time steps 1..t. *)
Fixpoint steps_sum (f : nat -> R) (t : nat) : R :=
  match t with O => 0 | S s => steps_sum f s + f (S s) end.

(** Values of the variables of a solution, under the names they have in the model. *)
Section Names.
  Variable v : point.
  Definition regional_emissions := rval v v_regional_emissions.
  Definition baseline := rval v v_baseline.
  Definition relative_abatement := rval v v_relative_abatement.
  Definition emission_reduction := rval v v_regional_emission_reduction.
  Definition global_emissions := gval v g_global_emissions.
  Definition cumulative_emissions := gval v g_cumulative_emissions.
  Definition temperature := gval v g_temperature.
  Definition carbonprice := rval v v_carbonprice.
  Definition mitigation_costs := rval v v_mitigation_costs.
  Definition area_under_MAC := rval v v_area_under_MAC.
  Definition GDP_gross := rval v v_GDP_gross.
  Definition GDP_net := rval v v_GDP_net.
  Definition capital_stock := rval v v_capital_stock.
  Definition investments := rval v v_investments.
  Definition consumption := rval v v_consumption.
  Definition damage_costs := rval v v_damage_costs.
  Definition NPV := gval v g_NPV.
  Definition yearly_welfare := gval v g_yearly_welfare.
End Names.

(** Step s lies within the horizon. *)
Definition model_step (p : pars) (t : nat) : Prop := (t <= tf p)%nat.

(** [a ^ b] for [a >= 0] and [b > 0]. *)
Definition apow (a b : R) : R := if Rlt_dec 0 a then exp (b * ln a) else 0.

(** More names. *)
Definition LBD_factor (v : point) := gval v g_LBD_factor.
Definition LOT_factor (v : point) := gval v g_LOT_factor.
Definition learning_factor (v : point) := gval v g_learning_factor.
(** Cumulative mitigation: emissions avoided so far relative to the baseline data. *)
Definition cumulative_mitigation (p : pars) (v : point) (t : nat) : R :=
  cumulative_global_baseline_emissions p t - cumulative_emissions v t.

(** Financial transfer paid by a region (a variable with the global damage pool, 0 otherwise). *)
Definition transfer_paid (p : pars) (v : point) (t : nat) (r : region) : R :=
  match transfer p with notransfer => 0 | globaldamagepool => rval v v_financial_transfer t r end.
(** Mitigation costs imported from other regions (variables with a trade module, 0 otherwise). *)
Definition imported_costs (p : pars) (v : point) (t : nat) (r : region) : R :=
  match trade p with notrade => 0 | _ => rval v v_import_export_mitigation_cost_balance t r end.
(** Share of capital that survives one time step. *)
Definition survival (p : pars) : R := exp (dt p * ln (1 - dk p)).

(** Emission trade and transfers. *)
Definition traded_costs (v : point) := rval v v_import_export_mitigation_cost_balance.
Definition traded_reductions (v : point) := rval v v_import_export_emission_reduction_balance.
Definition paid_for_reductions (v : point) := rval v v_paid_for_emission_reductions.
Definition allowances (v : point) := rval v v_regional_emission_allowances.
Definition global_carbonprice (v : point) := gval v g_global_carbonprice.
Definition rel_mitigation_costs (v : point) := rval v v_rel_mitigation_costs.
Definition rel_transfer_paid (p : pars) (v : point) (t : nat) (r : region) : R :=
  match transfer p with notransfer => 0 | globaldamagepool => rval v v_rel_financial_transfer t r end.
(** Shares of initial emissions and of population. *)
Definition initial_share (p : pars) (r : region) : R :=
  baseline_emissions p 0 r / total p (baseline_emissions p 0).
Definition population_share (p : pars) (t : nat) (r : region) : R :=
  population p t r / total p (population p t).
(** Two assignments agree on every variable the model declares (within its horizon and regions). *)
Definition same_values (declared : rvar -> bool) (p : pars) (v w : point) : Prop :=
  (forall g t, model_step p t -> g <> g_global_carbonprice -> gval w g t = gval v g t) /\
  (forall x t r, declared x = true -> model_step p t -> In r (regions p) -> rval w x t r = rval v x t r).
