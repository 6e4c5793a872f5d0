(** C52 for emissions that do not follow income: the run without climate policy exists. *)
From Coq Require Import Lra Lia.
From Verif Require Import ModelFacts SoftFacts ModelSpec PowFacts Equations Equations2 ClimateSpec ClimateLemmas Build VarFacts EconLemmas BuildFacts BuildLemmas DefinedFacts SolveFacts Simulate SimFacts ExistSpec ExistFacts ExistLemmas.
Open Scope R_scope.
Set Bullet Behavior "Strict Subproofs".

(** Cumulative emissions of the baseline: the sum over the regions, added up over the model years. *)
Fixpoint baseline_cumulative (p : pars) (t : nat) : R :=
  match t with
  | O => 0
  | S s => baseline_cumulative p s +
      dt p * (if cum_trapz p then (total p (baseline_emissions p (S s)) + total p (baseline_emissions p s)) / 2 else total p (baseline_emissions p (S s)))
  end.

Lemma C52_baseline_run_exists_pf : forall p Tmax,
  numeric_ranges p -> sound_data p -> usable_choices p -> slr_logistic_ok p -> 0 <= alpha p < 1 ->
  use_carbon_intensity p = false -> no_limits p ->
  (global_min_level p <> None \/ regional_min_level p <> None -> forall t r, model_step p t -> In r (regions p) -> 0 <= baseline_emissions p t r) ->
  0 <= MAC_gamma p -> 0 <= T0 p -> 0 <= TCRE p ->
  (forall t, model_step p t -> 0 <= baseline_cumulative p t /\ T0 p + TCRE p * baseline_cumulative p t <= Tmax) ->
  dt p * (Tmax + 1) < 325 ->
  (dmg_module p = COACCH -> forall r x y, In r (regions p) ->
     T0 p <= x <= Tmax -> 0 <= y <= sea_level_ceiling p Tmax ->
     -5/10 <= damages_at p r (T0 p) y <= 7/10 /\ (transfer p = globaldamagepool -> 0 <= damages_at p r x y)) ->
  exists v, feasible p v /\
    (forall t r, model_step p t -> In r (regions p) -> relative_abatement v t r = 0 /\ mitigation_costs v t r = 0 /\
       regional_emissions v t r = baseline_emissions p t r) /\
    forall t, model_step p t -> cumulative_emissions v t = baseline_cumulative p t /\ temperature v t = T0 p + TCRE p * baseline_cumulative p t.
Proof.
  intros p Tmax NR SD U SL Al UC NL FL MG HT HC HB DT DMG. set (a := fun (_ : nat) (_ : region) => 0). set (cum := baseline_cumulative p).
  assert (EM : forall t r, s_em p a cum t r = baseline_emissions p t r).
  { intros [|t] r; cbn [s_em]; [reflexivity|]. unfold a, s_base. rewrite UC. ring. }
  assert (GE : forall t, s_ge p a cum t = total p (baseline_emissions p t)) by (intros t; unfold s_ge, total; apply Rsum_ext; intros r _; apply EM).
  assert (CS : forall t, (S t <= tf p)%nat -> cum (S t) = cum t + (if cum_trapz p then dt p * (s_ge p a cum (S t) + s_ge p a cum t) / 2 else dt p * s_ge p a cum (S t))).
  { intros t _. rewrite !GE. unfold cum. cbn [baseline_cumulative]. destruct (cum_trapz p); field. }
  assert (U0 : forall t r, s_unit p a cum t r = 0).
  { intros t r. unfold s_unit, a. rewrite pow0 by (pose proof (proj1 (proj2 (proj2 (proj2 NR)))); lra). unfold Rdiv. ring. }
  assert (HTm : forall t, model_step p t -> T0 p + TCRE p * cum t <= Tmax) by (intros t H; apply (HB t H)).
  assert (TM : forall t, model_step p t -> T0 p <= s_temp p cum t <= Tmax).
  { intros t H. unfold s_temp. split; [|apply HTm, H]. pose proof (Rmult_le_pos _ _ HC (proj1 (HB t H))). unfold cum. lra. }
  exists (sim p a cum (fun _ => 0)). split; [|split].
  - apply sim_feasible; auto; [apply U|rewrite UC; discriminate|].
    apply zero_path_limits; auto. intros t Ht. split; [apply HB, Ht|].
    assert (CR : forall s, (s < t)%nat -> 0 <= cum s <= cum s) by (intros s Hs; split; [apply HB; unfold model_step in *; lia|lra]).
    destruct (slr_range p Tmax cum NR HT HC HTm DT cum t Ht CR) as (S1 & S2 & S3 & _).
    assert (SC : 0 <= s_slr p cum t <= sea_level_ceiling p Tmax).
    { unfold s_slr, sea_level_ceiling. unfold slr_thermal_expansion_init, slr_thermal_init, slr_thermal_adjust_rate, slr_thermal_equil in S1.
      assert (TP : 0 <= Tmax) by (specialize (TM t Ht); lra). pose proof (proj1 NR) as DP.
      assert (I : INR t <= INR (tf p)) by (apply le_INR; exact Ht). pose proof (pos_INR t).
      assert (D1 : INR t * dt p <= INR (tf p) * dt p) by (apply Rmult_le_compat_r; lra). assert (D0 : 0 <= INR t * dt p) by (apply Rmult_le_pos; lra). nra. }
    split; [lra|]. split; [lra|]. split; [lra|]. destruct NL as (_ & _ & NL3 & NL4 & _).
    split. { intros l L. fold a. rewrite GE. apply Rle_trans with (1 := NL3 l L). apply Rsum_nonneg. intros r Hr. apply FL; auto. left. rewrite L. discriminate. }
    intros r Hr. split. { intros l L. fold a. rewrite EM. apply Rle_trans with (1 := NL4 l L). apply FL; auto. right. rewrite L. discriminate. }
    split.
    + intros D. assert (TM0 : T0 p <= T0 p <= Tmax) by (specialize (TM t Ht); lra). destruct (DMG D r (T0 p) (s_slr p cum t) Hr TM0 SC) as (Q & _).
      unfold damages_at in Q. unfold s_ds. change (s_slr p cum 0) with (slr_thermal_expansion_init p + 15/1000 + 6/1000). lra.
    + intros T. unfold s_dam. destruct (dmg_module p) eqn:D; [|lra].
      destruct (DMG eq_refl r (s_temp p cum t) (s_slr p cum t) Hr (TM t Ht) SC) as (_ & Q). specialize (Q T).
      unfold damages_at in Q. unfold s_dn, s_ds. change (s_slr p cum 0) with (slr_thermal_expansion_init p + 15/1000 + 6/1000). lra.
  - intros t r Ht Hr. unfold relative_abatement, mitigation_costs, regional_emissions. cbn [rval sim].
    split; [reflexivity|]. split; [unfold s_M; rewrite U0; ring|apply EM].
  - intros t Ht. split; reflexivity.
Qed.
