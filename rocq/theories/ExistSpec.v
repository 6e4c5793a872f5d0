(** Vocabulary for the existence theorems (C52). *)
From Verif Require Export ModelSpec SoftFacts ClimateSpec Build VarFacts Simulate SimFacts.

(** Output per unit of "effective capital": TFP * population^(1-alpha). *)
Definition output_scale (p : pars) (t : nat) (r : region) : R := TFP p t r * Rpower (population p t r) (1 - alpha p).

(** Upper envelope of the economy: capital [Kb] and cumulative emissions [Cb] that an economy keeping a share
    [kap] of its gross output every year cannot exceed. *)
Definition envelope (p : pars) (kap : R) (Kb : nat -> region -> R) (Cb : nat -> R) : Prop :=
  let Yb t r := output_scale p t r * Rpower (smin 10 (Kb t r)) (alpha p) in
  let Eb t := match t with
              | O => total p (baseline_emissions p 0)
              | S _ => total p (fun r => baseline_carbon_intensity p t r * (kap * Yb t r)) end in
  (forall r, In r (regions p) -> init_capital_factor p r * baseline_GDP p 0 r <= Kb 0%nat r) /\
  0 <= Cb 0%nat /\
  forall t, (S t <= tf p)%nat ->
    (forall r, In r (regions p) ->
       Kb t r + dt p * sr p * (kap * Yb (S t) r) <= (2 - survival p) * Kb (S t) r) /\
    Cb t + dt p * (if cum_trapz p then (Eb (S t) + Eb t) / 2 else Eb (S t)) <= Cb (S t).

(** Highest sea level that can be reached when the temperature stays between T0 and Tmax. *)
Definition sea_level_ceiling (p : pars) (Tmax : R) : R :=
  40/100 + T0 p / 50 + INR (tf p) * dt p * (1 + 3 * Tmax) / 1000.

(** Damages (fraction of GDP) at temperature x and sea level y, relative to the start of the simulation. *)
Definition damages_at (p : pars) (r : region) (x y : R) : R :=
  damage_scale_factor p * (damage_curve (dmg_noslr p) r (x - 6/10) - damage_curve (dmg_noslr p) r (T0 p - 6/10))
  + damage_scale_factor p * (damage_curve (dmg_slr p) r y
      - damage_curve (dmg_slr p) r (slr_thermal_expansion_init p + 15/1000 + 6/1000)).
