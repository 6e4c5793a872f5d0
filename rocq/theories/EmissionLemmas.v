(** C20-C26 *)
From Coq Require Import Lra Lia.
From Verif Require Import ModelFacts SoftFacts ModelSpec Equations Transfer.

Lemma year_mono p s t : 0 <= dt p -> (s <= t)%nat -> year p s <= year p t.
Proof.
  intros H Hst. unfold year. apply le_INR in Hst. nra.
Qed.

Lemma cum_steps p v t : feasible p v -> model_step p t ->
  cumulative_emissions v t
  = dt p * steps_sum (fun s => if cum_trapz p then (global_emissions v s + global_emissions v (s - 1)) / 2
                               else global_emissions v s) t.
Proof.
  intros F Ht. unfold model_step in Ht. induction t as [|t IH]; cbn [steps_sum].
  - unfold cumulative_emissions. rewrite (q_cum0 p v F). lra.
  - unfold cumulative_emissions in *. rewrite (q_cum p v F) by auto. rewrite IH by lia.
    replace (S t - 1)%nat with t by lia. unfold global_emissions.
    destruct (cum_trapz p); lra.
Qed.

Lemma C20_emission_accounting_pf : forall p v t, feasible p v -> model_step p t ->
  global_emissions v t = total p (regional_emissions v t) /\
  (forall r, In r (regions p) ->
     emission_reduction v t r = baseline v t r - regional_emissions v t r /\
     baseline v t r = (if use_carbon_intensity p
                       then baseline_emissions p t r / baseline_GDP p t r * GDP_net v t r
                       else baseline_emissions p t r) /\
     (t = 0%nat -> regional_emissions v t r = baseline_emissions p 0 r) /\
     ((0 < t)%nat -> regional_emissions v t r = (1 - relative_abatement v t r) * baseline v t r)) /\
  cumulative_emissions v t
  = dt p * steps_sum (fun s => if cum_trapz p then (global_emissions v s + global_emissions v (s - 1)) / 2
                               else global_emissions v s) t.
Proof.
  intros p v t F Ht. split; [apply (q_global p v F); auto|]. split.
  - intros r Hr. split; [apply (q_reduction p v F); auto|].
    split; [apply (q_baseline p v F); auto|]. split.
    + intros ->. apply (q_emissions0 p v F); auto.
    + intros H. apply (q_abatement p v F); auto.
  - apply cum_steps; auto.
Qed.

Lemma C21_budget_respected_pf : forall p v B t, feasible p v -> budget p = Some B ->
  model_step p t -> 2100 <= year p t -> cumulative_emissions v t <= B.
Proof. intros p v B t F HB Ht Y. apply (q_budget p v F t B); auto. Qed.

(** "for every accepted time grid" fails: a horizon ending before 2100 silently drops the budget. *)
Lemma C21_budget_ignored_before_2100_refuted_pf : forall p v B, 0 <= dt p -> year p (tf p) < 2100 ->
  (feasible (with_budget (Some B) p) v <-> feasible (with_budget None p) v).
Proof.
  intros p v B Hdt Hy.
  assert (N : forall t, (t <= tf p)%nat -> Rleb 2100 (year p t) = false).
  { intros t Ht. apply Rleb_false. pose proof (year_mono p t (tf p) Hdt Ht). lra. }
  split; intros H; transfer H; intros t Hq; unfold c_carbon_budget, c_net_zero; cbn [budget with_budget tf] in Hq |- *;
    try exact I.
  - change (year (with_budget (Some B) p) t) with (year p t). rewrite N by auto. exact I.
  - change (year (with_budget (Some B) p) t) with (year p t). rewrite N by auto. exact I.
Qed.

Lemma C22_emissions_after_budget_year_pf : forall p v B t, feasible p v -> budget p = Some B ->
  no_pos_after_budget_year p = true -> model_step p t -> 2100 <= year p t ->
  global_emissions v t <= 0.
Proof. intros p v B t F HB Hn Ht Y. apply (q_net_zero p v F t B); auto. Qed.

Lemma C22_no_increase_after_2100_pf : forall p v B s t, feasible p v -> 0 < dt p -> 0 <= TCRE p ->
  budget p = Some B -> no_pos_after_budget_year p = true ->
  (s <= t)%nat -> model_step p t -> 2100 <= year p s ->
  cumulative_emissions v t <= cumulative_emissions v s /\ temperature v t <= temperature v s.
Proof.
  intros p v B s t F Hdt HT HB Hn Hst Ht Y.
  assert (C : cumulative_emissions v t <= cumulative_emissions v s).
  { unfold model_step in Ht. induction Hst as [|t Hst IH]; [lra|].
    specialize (IH ltac:(lia)). unfold cumulative_emissions in *.
    rewrite (q_cum p v F) by auto.
    pose proof (year_mono p s t ltac:(lra) Hst).
    pose proof (year_mono p s (S t) ltac:(lra) ltac:(lia)).
    pose proof (q_net_zero p v F t B ltac:(lia) HB Hn ltac:(lra)).
    pose proof (q_net_zero p v F (S t) B ltac:(lia) HB Hn ltac:(lra)).
    destruct (cum_trapz p); nra. }
  split; auto. unfold temperature, model_step in *.
  rewrite !(q_temp p v F) by (auto; lia). unfold cumulative_emissions in C. nra.
Qed.

(** The option is ignored when no budget is set. *)
Lemma C22_option_needs_budget_refuted_pf : forall p v, budget p = None ->
  (feasible (with_no_pos_after_budget_year true p) v <-> feasible (with_no_pos_after_budget_year false p) v).
Proof.
  intros p v HB.
  split; intros H; transfer H; intros t Hq; unfold c_net_zero;
    cbn [budget with_no_pos_after_budget_year tf] in Hq |- *; rewrite HB; exact I.
Qed.

Lemma C23_temperature_pf : forall p v t, feasible p v -> model_step p t ->
  temperature v t = T0 p + TCRE p * cumulative_emissions v t /\ temperature v 0 = T0 p /\
  (0 <= TCRE p -> T0 p <= temperature v t) /\
  (forall T, temperature_target p = Some T -> 2100 <= year p t -> temperature v t <= T).
Proof.
  intros p v t F Ht. unfold temperature, cumulative_emissions, model_step in *.
  split; [apply (q_temp p v F); auto|]. split.
  { rewrite (q_temp p v F) by lia. rewrite (q_cum0 p v F). lra. }
  split.
  - intros HT. rewrite (q_temp p v F) by auto. pose proof (q_cum_nonneg p v F t Ht). nra.
  - intros T HT Y. apply (q_target p v F); auto.
Qed.
(** ... and the target is dropped when the horizon ends before 2100. *)
Lemma C23_target_ignored_before_2100_refuted_pf : forall p v T, 0 <= dt p -> year p (tf p) < 2100 ->
  (feasible (with_temperature_target (Some T) p) v <-> feasible (with_temperature_target None p) v).
Proof.
  intros p v T Hdt Hy.
  split; intros H; transfer H; intros t Hq; unfold c_temperature_target;
    cbn [temperature_target with_temperature_target tf] in Hq |- *; [exact I|].
  change (year (with_temperature_target (Some T) p) t) with (year p t).
  rewrite (proj2 (Rleb_false _ _)); [exact I|]. pose proof (year_mono p t (tf p) Hdt Hq). lra.
Qed.

Lemma C24_speed_limit_pf : forall p v s t i, feasible p v -> (s <= t)%nat -> model_step p t ->
  (inertia_regional p = Some i -> forall r, In r (regions p) ->
     regional_emissions v t r - regional_emissions v s r
     >= (year p t - year p s) * i * baseline_emissions p 0 r) /\
  (inertia_global p = Some i ->
     global_emissions v t - global_emissions v s
     >= (year p t - year p s) * i * total p (baseline_emissions p 0)).
Proof.
  intros p v s t i F Hst Ht. unfold model_step in Ht.
  assert (Y : forall t, year p (S t) = year p t + dt p) by (intros; unfold year; rewrite S_INR; lra).
  split.
  - intros Hi r Hr. induction Hst as [|t Hst IH]; [lra|].
    specialize (IH ltac:(lia)). rewrite Y.
    pose proof (q_inertia_r p v F t r i Ht Hr Hi). unfold regional_emissions in *.
    replace ((year p t + dt p - year p s) * i * baseline_emissions p 0 r)
      with ((year p t - year p s) * i * baseline_emissions p 0 r + dt p * i * baseline_emissions p 0 r) by lra.
    lra.
  - intros Hi. induction Hst as [|t Hst IH]; [lra|].
    specialize (IH ltac:(lia)). rewrite Y.
    pose proof (q_inertia_g p v F t i Ht Hi). unfold global_emissions, total in *.
    replace ((year p t + dt p - year p s) * i * Rsum (baseline_emissions p 0) (regions p))
      with ((year p t - year p s) * i * Rsum (baseline_emissions p 0) (regions p)
            + dt p * i * Rsum (baseline_emissions p 0) (regions p)) by lra.
    lra.
Qed.

Lemma C25_minimum_levels_pf : forall p v t l, feasible p v -> model_step p t ->
  (global_min_level p = Some l -> l <= global_emissions v t) /\
  (regional_min_level p = Some l -> forall r, In r (regions p) -> l <= regional_emissions v t r).
Proof.
  intros p v t l F Ht. split.
  - intros E. apply (q_min_g p v F); auto.
  - intros E r Hr. apply (q_min_r p v F); auto.
Qed.
(** The level also applies to the initial year, whose emissions are data: a level above the initial
    emissions has no solution. *)
Lemma C25_initial_year_included_pf : forall p v l r, feasible p v -> regional_min_level p = Some l ->
  In r (regions p) -> l <= baseline_emissions p 0 r.
Proof.
  intros p v l r F E Hr. rewrite <- (q_emissions0 p v F r Hr). apply (q_min_r p v F); auto. lia.
Qed.
Lemma C25_non_increasing_pf : forall p v s t r, feasible p v -> 0 < dt p ->
  non_increasing_after_2100 p = true -> In r (regions p) -> (s <= t)%nat -> model_step p t ->
  2100 < year p s -> regional_emissions v t r <= regional_emissions v s r.
Proof.
  intros p v s t r F Hdt Hn Hr Hst Ht Y. unfold model_step, regional_emissions in *.
  induction Hst as [|t Hst IH]; [lra|]. specialize (IH ltac:(lia)).
  pose proof (year_mono p s t ltac:(lra) Hst).
  pose proof (q_non_incr p v F t r Ht Hr Hn ltac:(lra)). lra.
Qed.

Lemma cum_base_year p t : forall l,
  Rsum (cumulative_baseline_emissions p (S t)) l
  = Rsum (cumulative_baseline_emissions p t) l
    + dt p * (Rsum (baseline_emissions p t) l + Rsum (baseline_emissions p (S t)) l) / 2.
Proof.
  intros l. rsum_ind l. rewrite IH. cbn [cumulative_baseline_emissions].
  assert (year p (S t) - year p t = dt p) as -> by (unfold year; rewrite S_INR; lra). lra.
Qed.

(** Zero abatement everywhere up to step t *)
Definition no_abatement (p : pars) (v : point) (t : nat) : Prop :=
  forall s r, (0 < s <= t)%nat -> In r (regions p) -> relative_abatement v s r = 0.

Lemma no_abatement_global p v t s : feasible p v -> use_carbon_intensity p = false ->
  no_abatement p v t -> model_step p t -> (s <= t)%nat ->
  global_emissions v s = total p (baseline_emissions p s).
Proof.
  intros F U N Ht Hs. unfold model_step in Ht.
  unfold global_emissions, total. rewrite (q_global p v F) by lia. apply Rsum_ext. intros r Hr.
  destruct s as [|s]; [apply (q_emissions0 p v F); auto|].
  rewrite (q_abatement p v F) by (auto; lia).
  unfold no_abatement, relative_abatement in N. rewrite N by (auto; lia).
  rewrite (q_baseline p v F), U by (auto; lia). lra.
Qed.

Lemma C26_no_abatement_baseline_pf : forall p v t, feasible p v -> use_carbon_intensity p = false ->
  model_step p t ->
  (forall r, In r (regions p) -> (0 < t)%nat -> relative_abatement v t r = 0 ->
     regional_emissions v t r = baseline_emissions p t r) /\
  (no_abatement p v t -> cum_trapz p = true ->
     cumulative_emissions v t = cumulative_global_baseline_emissions p t).
Proof.
  intros p v t F U Ht. unfold model_step in Ht. split.
  - intros r Hr H0 Ha. unfold regional_emissions, relative_abatement in *.
    rewrite (q_abatement p v F) by auto. rewrite Ha, (q_baseline p v F), U by auto. lra.
  - intros N Tz. unfold cumulative_emissions, cumulative_global_baseline_emissions.
    induction t as [|t IH].
    + rewrite (q_cum0 p v F). symmetry. apply Rsum_const0.
    + rewrite cum_base_year. rewrite (q_cum p v F), Tz by auto.
      rewrite IH; [|lia|intros s r Hs; apply N; lia].
      pose proof (no_abatement_global p v (S t) t F U N Ht ltac:(lia)) as E1.
      pose proof (no_abatement_global p v (S t) (S t) F U N Ht ltac:(lia)) as E2.
      unfold global_emissions, total in E1, E2. rewrite E1, E2. lra.
Qed.

(** With the right-endpoint rule the two differ by half a step of the change in baseline emissions. *)
Lemma C26_right_endpoint_differs_refuted_pf : forall p v t, feasible p v ->
  use_carbon_intensity p = false -> model_step p t -> no_abatement p v t -> cum_trapz p = false ->
  cumulative_emissions v t - cumulative_global_baseline_emissions p t
  = dt p / 2 * (total p (baseline_emissions p t) - total p (baseline_emissions p 0)).
Proof.
  intros p v t F U Ht N Tz. unfold model_step, cumulative_emissions, cumulative_global_baseline_emissions, total in *.
  induction t as [|t IH].
  - rewrite (q_cum0 p v F). cbn [cumulative_baseline_emissions]. rewrite Rsum_const0. lra.
  - rewrite cum_base_year. rewrite (q_cum p v F), Tz by auto.
    specialize (IH ltac:(lia) ltac:(intros s r Hs; apply N; lia)).
    pose proof (no_abatement_global p v (S t) (S t) F U N Ht ltac:(lia)) as E2.
    unfold global_emissions, total in E2. rewrite E2. lra.
Qed.
