(** C52: the model has solutions. *)
From Coq Require Import Lra Lia.
From Verif Require Import ModelFacts SoftFacts ModelSpec PowFacts Equations Equations2 Build VarFacts EconLemmas BuildFacts BuildLemmas DefinedFacts
  SolveFacts ClimateSpec ClimateLemmas WelfareSpec Simulate SimFacts ExistSpec ExistFacts.
Set Bullet Behavior "Strict Subproofs".

Lemma sim_limits p a cum level : feasible p (sim p a cum level) -> within_limits p (sim p a cum level).
Proof.
  intros F t Ht. pose proof (q_bounds p _ F t Ht) as (B1 & B2 & B3 & _).
  split; [apply (q_cum_nonneg p _ F); auto|].
  split; [intros T X Y; apply (q_target p _ F t T); auto|].
  split; [intros B X Y; apply (q_budget p _ F t B); auto|].
  split; [intros B X Z Y; apply (q_net_zero p _ F t B); auto|].
  split; [intros l X; apply (q_min_g p _ F t l); auto|].
  split; [intros i s X ->; apply Rge_le, (q_inertia_g p _ F s i); auto|].
  split; [exact B1|]. split; [exact B2|]. split; [exact B3|].
  intros r Hr. destruct (q_bounds_r p _ F t r Ht Hr) as (C1 & C2 & C3 & _).
  split; [unfold relative_abatement; lra|]. split; [exact C2|]. split; [exact C3|].
  split; [intros l X; apply (q_min_r p _ F t r l); auto|].
  split; [intros i s X ->; apply Rge_le, (q_inertia_r p _ F s r i); auto|].
  split; [intros s X -> Y; apply (q_non_incr p _ F s r); auto|].
  split; [|split; [|split; [|split]]].
  - intros H0. pose proof (q_rel_mitigation_min p _ F t r Ht Hr) as Q. destruct t; [lia|]. cbn [Nat.ltb Nat.leb] in Q. apply Rge_le. exact Q.
  - intros TR. pose proof (q_tr_max p _ F TR t r Ht Hr) as Q. cbn [rval sim] in Q. unfold damage_costs, GDP_gross. cbn [rval sim]. lra.
  - intros E. pose proof (q_eff_mitigation p _ F t r E Ht Hr) as Q. unfold effort_level, rel_mitigation_costs. lra.
  - intros E Y. pose proof (q_eff_total p _ F t r E Ht Hr Y) as Q. unfold rel_financial_transfer in Q.
    unfold effort_level, rel_mitigation_costs, damage_costs, rel_transfer_paid. destruct (transfer p); cbn [deno rval gval sim] in Q |- *; lra.
  - intros E H0. pose proof (q_eff_percap p _ F t r E (conj H0 Ht) Hr) as Q. unfold allowances, global_emissions. lra.
Qed.

(** With prescribed baseline emissions: for every abatement path there is an assignment of all variables that
    satisfies every equation; it is a solution of the model exactly if it respects the policy limits and bounds. *)
Lemma C52_every_path_simulates_pf : forall p a level,
  numeric_ranges p -> sound_data p -> usable_choices p -> slr_logistic_ok p -> 0 <= alpha p < 1 ->
  use_carbon_intensity p = false -> (forall r, In r (regions p) -> a 0%nat r = 0) ->
  exists v, (forall t r, relative_abatement v t r = a t r) /\ (forall t, effort_level v t = level t) /\ equations_hold p v /\
    (feasible p v <-> within_limits p v).
Proof.
  intros p a level NR SD U SL Al UC A0. pose proof (proj1 U) as NT.
  set (E := fun t => match t with O => total p (baseline_emissions p 0) | S _ => total p (fun r => (1 - a t r) * baseline_emissions p t r) end).
  set (cum := fix cum (t : nat) : R := match t with O => 0 | S s => cum s + if cum_trapz p then dt p * (E (S s) + E s) / 2 else dt p * E (S s) end).
  assert (GE : forall t, s_ge p a cum t = E t).
  { intros [|t]; unfold s_ge, E, total; apply Rsum_ext; intros r Hr; cbn [s_em]; auto. unfold s_base. rewrite UC. reflexivity. }
  assert (CS : forall t, (S t <= tf p)%nat -> cum (S t) = cum t
    + (if cum_trapz p then dt p * (s_ge p a cum (S t) + s_ge p a cum t) / 2 else dt p * s_ge p a cum (S t))).
  { intros t Ht. rewrite !GE. reflexivity. }
  exists (sim p a cum level). split; [reflexivity|]. split; [reflexivity|]. split.
  - apply sim_equations; auto. rewrite UC. discriminate.
  - split; [apply sim_limits|]. intros L. apply sim_feasible; auto. rewrite UC. discriminate.
Qed.

(** With baseline emissions that follow the model's own GDP (the default), all steps are implicit equations; a
    solution exists as long as damages cannot exceed the whole GDP at any temperature the economy can reach. *)
Lemma C52_every_path_simulates_endogenous_pf : forall p a level kap Tmax Kb Cb,
  numeric_ranges p -> sound_data p -> usable_choices p -> slr_logistic_ok p -> 0 <= alpha p < 1 ->
  use_carbon_intensity p = true ->
  (forall t r, model_step p t -> In r (regions p) -> 0 <= baseline_emissions p t r) ->
  (forall r, In r (regions p) -> 0 <= MAC_scaling p r) -> 0 <= MAC_gamma p -> 0 <= T0 p -> 0 <= TCRE p ->
  1 <= kap -> envelope p kap Kb Cb -> (forall t, model_step p t -> T0 p + TCRE p * Cb t <= Tmax) ->
  dt p * (Tmax + 1) < 325 ->
  (dmg_module p = COACCH -> ignore_damages p = false -> forall r x y, In r (regions p) ->
     T0 p <= x <= Tmax -> 0 <= y <= sea_level_ceiling p Tmax -> 1 - kap <= damages_at p r x y <= 1) ->
  (forall r, In r (regions p) -> a 0%nat r = 0) ->
  (forall t r, model_step p t -> In r (regions p) -> 0 <= a t r <= 1) ->
  exists v, (forall t r, relative_abatement v t r = a t r) /\ (forall t, effort_level v t = level t) /\ equations_hold p v /\
    (feasible p v <-> within_limits p v) /\
    forall t, model_step p t -> T0 p <= temperature v t <= Tmax /\ 0 <= global_emissions v t /\ 0 <= cumulative_emissions v t <= Cb t /\
      0 <= thermal_SLR v t /\ 0 <= glacier_SLR v t /\ 0 <= icesheet_SLR v t /\ total_SLR v t <= sea_level_ceiling p Tmax.
Proof.
  intros p a level kap Tmax Kb Cb NR SD U SL Al UC BE MS MG HT HC HK ENV HTm DT DMG A0 HA. pose proof (proj1 U) as NT.
  destruct (path_exists p a kap Tmax Kb Cb NR SD U UC Al BE MS MG HA HT HC HK ENV HTm DT DMG (tf p) (Nat.le_refl _))
    as (cum & C0 & CB & CS & KB & GB).
  assert (UN : use_carbon_intensity p = true -> forall t r, model_step p t -> In r (regions p) ->
    1 + s_unit p a cum t r * baseline_carbon_intensity p t r <> 0).
  { intros _ t r Ht Hr. pose proof (unit_nn p a NR MS MG HA cum t r Ht Hr). pose proof (sigma_nn p SD BE t r Ht Hr).
    assert (0 <= s_unit p a cum t r * baseline_carbon_intensity p t r) by (apply Rmult_le_pos; auto). lra. }
  exists (sim p a cum level). split; [reflexivity|]. split; [reflexivity|]. split; [apply sim_equations; auto|].
  split. { split; [apply sim_limits|]. intros L. apply sim_feasible; auto. }
  intros t Ht. unfold temperature, global_emissions, cumulative_emissions, thermal_SLR, glacier_SLR, icesheet_SLR, total_SLR. cbn [gval sim].
  destruct (CB t Ht) as [Q1 Q2].
  assert (SR := slr_range p Tmax Cb NR HT HC HTm DT cum t Ht (fun s Hs => CB s ltac:(unfold model_step in *; lia))).
  assert (SC := slr_ceiling p kap Tmax Kb Cb NR HT HC ENV HTm DT cum t Ht (fun s Hs => CB s ltac:(unfold model_step in *; lia))).
  repeat split; try tauto.
  - unfold s_temp. assert (0 <= TCRE p * cum t) by (apply Rmult_le_pos; auto). lra.
  - unfold s_temp. specialize (HTm t Ht). assert (TCRE p * cum t <= TCRE p * Cb t) by (apply Rmult_le_compat_l; auto). lra.
  - apply GB; auto.
Qed.

(** A run without climate policy exists: zero abatement, no limits (floors at or below zero emissions, such as the default ones, are allowed). *)
Definition no_limits (p : pars) : Prop :=
  temperature_target p = None /\ budget p = None /\
  (forall l, global_min_level p = Some l -> l <= 0) /\ (forall l, regional_min_level p = Some l -> l <= 0) /\
  inertia_global p = None /\ inertia_regional p = None /\ non_increasing_after_2100 p = false /\ effort_regime p = noregime /\
  rel_mitigation_costs_min_level p <= 0.
Lemma zero_path_limits p cum level : numeric_ranges p -> no_limits p -> 0 <= MAC_gamma p -> sound_data p -> usable_choices p ->
  0 <= alpha p < 1 ->
  (forall t, model_step p t -> 0 <= cum t /\ 0 <= s_th p cum t /\ 0 <= s_gs p cum t /\ 0 <= s_gi p cum t /\
     (forall l, global_min_level p = Some l -> l <= s_ge p (fun _ _ => 0) cum t) /\
     forall r, In r (regions p) -> (forall l, regional_min_level p = Some l -> l <= s_em p (fun _ _ => 0) cum t r) /\ (dmg_module p = COACCH -> -5/10 <= s_ds p cum t r <= 7/10) /\
       (transfer p = globaldamagepool -> 0 <= s_dam p cum t r)) ->
  within_limits p (sim p (fun _ _ => 0) cum level).
Proof.
  intros NR (L1 & L2 & L3 & L4 & L5 & L6 & L7 & L8 & L9) MG SD U Al H t Ht. destruct (H t Ht) as (H1 & H2 & H3 & H4 & HG & HR).
  rewrite L1, L2, L5, L6, L7, L8.
  unfold global_emissions, cumulative_emissions, thermal_SLR, glacier_SLR, icesheet_SLR. cbn [gval sim].
  split; [auto|]. do 3 (split; [intros; discriminate|]). split; [exact HG|]. split; [intros; discriminate|]. do 3 (split; [auto|]).
  intros r Hr. destruct (HR r Hr) as [HE [HR1 HR2]].
  assert (B : 0 < MAC_beta p) by apply NR.
  unfold regional_emissions, relative_abatement, carbonprice, sealevel_damages, rel_mitigation_costs, damage_costs, GDP_gross. cbn [rval sim].
  split; [lra|]. split. { unfold s_price. rewrite pow0 by auto. lra. }
  split; [auto|]. split; [exact HE|]. do 2 (split; [intros; discriminate|]).
  split. { intros _. unfold s_M, s_unit. rewrite pow0 by lra. unfold Rdiv. rewrite Rmult_0_r, !Rmult_0_l. auto. }
  split. { intros T. apply Rmult_le_pos; [apply HR2; auto|]. apply Rlt_le.
    destruct SD as (_ & PD & _). destruct (PD r Hr) as [_ D]. destruct (D t Ht) as [P G].
    destruct NR as (Hdt & Hk & Hs & _).
    destruct t as [|t]; [exact G|]. unfold s_Y, s_prod. apply Rmult_lt_0_compat; [apply Rmult_lt_0_compat|].
    - apply TFP_pos; auto.
    - apply pypow_pos_pos; auto.
    - apply pypow_pos_pos. apply smin_pos. lra. }
  repeat split; intros; discriminate.
Qed.
Lemma C52_no_policy_run_exists_pf : forall p kap Tmax Kb Cb,
  numeric_ranges p -> sound_data p -> usable_choices p -> slr_logistic_ok p -> 0 <= alpha p < 1 ->
  use_carbon_intensity p = true -> no_limits p ->
  (forall t r, model_step p t -> In r (regions p) -> 0 <= baseline_emissions p t r) ->
  (forall r, In r (regions p) -> 0 <= MAC_scaling p r) -> 0 <= MAC_gamma p -> 0 <= T0 p -> 0 <= TCRE p ->
  1 <= kap -> envelope p kap Kb Cb -> (forall t, model_step p t -> T0 p + TCRE p * Cb t <= Tmax) ->
  dt p * (Tmax + 1) < 325 ->
  (dmg_module p = COACCH -> forall r x y, In r (regions p) ->
     T0 p <= x <= Tmax -> 0 <= y <= sea_level_ceiling p Tmax ->
     (ignore_damages p = false -> 1 - kap <= damages_at p r x y <= 1) /\ -5/10 <= damages_at p r (T0 p) y <= 7/10 /\
     (transfer p = globaldamagepool -> 0 <= damages_at p r x y)) ->
  exists v, feasible p v /\
    (forall t r, model_step p t -> In r (regions p) -> relative_abatement v t r = 0 /\ mitigation_costs v t r = 0 /\
       ((1 <= t)%nat -> regional_emissions v t r = baseline v t r)) /\
    forall t, model_step p t -> T0 p <= temperature v t <= Tmax.
Proof.
  intros p kap Tmax Kb Cb NR SD U SL Al UC NL BE MS MG HT HC HK ENV HTm DT DMG.
  set (a := fun (_ : nat) (_ : region) => 0).
  assert (HA : forall t r, model_step p t -> In r (regions p) -> 0 <= a t r <= 1) by (intros; unfold a; lra).
  assert (DMG' : dmg_module p = COACCH -> ignore_damages p = false -> forall r x y, In r (regions p) ->
     T0 p <= x <= Tmax -> 0 <= y <= sea_level_ceiling p Tmax -> 1 - kap <= damages_at p r x y <= 1).
  { intros A I r x y Hr Hx Hy. destruct (DMG A r x y Hr Hx Hy) as (Q & _). exact (Q I). }
  destruct (path_exists p a kap Tmax Kb Cb NR SD U UC Al BE MS MG HA HT HC HK ENV HTm DT DMG' (tf p) (Nat.le_refl _))
    as (cum & C0 & CB & CS & KB & GB).
  assert (TM : forall t, model_step p t -> T0 p <= s_temp p cum t <= Tmax).
  { intros t Ht. destruct (CB t Ht). unfold s_temp. specialize (HTm t Ht).
    assert (TCRE p * cum t <= TCRE p * Cb t) by (apply Rmult_le_compat_l; auto).
    assert (0 <= TCRE p * cum t) by (apply Rmult_le_pos; auto). lra. }
  assert (U0 : forall t r, s_unit p a cum t r = 0).
  { intros t r. unfold s_unit, a. rewrite pow0 by (pose proof (proj1 (proj2 (proj2 (proj2 NR)))); lra). unfold Rdiv. ring. }
  exists (sim p a cum (fun _ => 0)). split; [|split].
  - apply sim_feasible; auto; [apply U|intros _ t r _ _; rewrite U0; lra|].
    apply zero_path_limits; auto. intros t Ht. split; [apply CB; auto|].
    destruct (slr_range p Tmax Cb NR HT HC HTm DT cum t Ht (fun s Hs => CB s ltac:(unfold model_step in *; lia))) as (S1 & S2 & S3 & _).
    assert (SC := slr_ceiling p kap Tmax Kb Cb NR HT HC ENV HTm DT cum t Ht (fun s Hs => CB s ltac:(unfold model_step in *; lia))).
    split; [lra|]. split; [lra|]. split; [lra|].
    assert (EN : forall r, In r (regions p) -> 0 <= s_em p a cum t r).
    { intros r Hr. destruct t as [|t']; [apply BE; auto|]. cbn [s_em]. unfold a at 1, s_base. rewrite UC. unfold s_Yn. rewrite UC.
      assert (KR := keep_range p kap Tmax Kb Cb NR HT HC HK ENV HTm DT DMG' cum (S t') r Ht Hr (fun s Hs => CB s ltac:(unfold model_step in *; lia))).
      rewrite U0. rewrite Rmult_0_l, Rplus_0_r, Rminus_0_r, Rmult_1_l. unfold Rdiv. rewrite Rinv_1, Rmult_1_r.
      apply Rmult_le_pos; [apply (sigma_nn p SD BE); auto|]. apply Rmult_le_pos; [|apply KR].
      destruct (scale_eq p NR SD (S t') r Ht Hr) as [E1 E2]. cbn [s_Y]. rewrite E1. apply Rmult_le_pos; [lra|].
      apply Rlt_le, pypow_pos_pos, smin_pos; lra. }
    destruct NL as (_ & _ & NL3 & NL4 & _).
    split. { intros l L. apply Rle_trans with (1 := NL3 l L). apply Rsum_nonneg. exact EN. }
    intros r Hr. split. { intros l L. apply Rle_trans with (1 := NL4 l L). apply EN; auto. }
    assert (TM0 : T0 p <= T0 p <= Tmax) by (specialize (TM t Ht); lra).
    split.
    + intros D. destruct (DMG D r (T0 p) (s_slr p cum t) Hr TM0 SC) as (_ & Q & _).
      unfold damages_at in Q. unfold s_ds. change (s_slr p cum 0) with (slr_thermal_expansion_init p + 15/1000 + 6/1000). lra.
    + intros T. unfold s_dam. destruct (dmg_module p) eqn:D; [|lra].
      destruct (DMG eq_refl r (s_temp p cum t) (s_slr p cum t) Hr (TM t Ht) SC) as (_ & _ & Q). specialize (Q T).
      unfold damages_at in Q. unfold s_dn, s_ds. change (s_slr p cum 0) with (slr_thermal_expansion_init p + 15/1000 + 6/1000). lra.
  - intros t r Ht Hr. unfold relative_abatement, mitigation_costs, regional_emissions, baseline. cbn [rval sim].
    split; [reflexivity|]. split; [unfold s_M; rewrite U0; ring|].
    destruct t as [|t]; [lia|]. intros _. cbn [s_em]. unfold a. ring.
  - intros t Ht. exact (TM t Ht).
Qed.
