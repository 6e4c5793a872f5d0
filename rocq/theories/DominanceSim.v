(** C68, simulation mode: fixing abatement at zero (run_baseline.py, first run) gives the baseline within the tolerance of simulation mode. *)
From Coq Require Import Reals Lra Lia List String.
From Verif Require Import ModelFacts SoftFacts ModelSpec Equations Equations2 PowFacts EconLemmas MitigationLemmas Build VarFacts BuildFacts BuildLemmas Names SimMode SimModeLemmas.
Import ListNotations.
Set Bullet Behavior "Strict Subproofs".
Open Scope R_scope.

(** When nothing is deactivated, every solution of the simulation-mode instance meets all constraints of the model. *)
Lemma sim_solution_feasible extra n m p s active v : create_instance p extra n m (Some s) = Ok active -> sim_deactivated s = [] -> solution_of p active v -> feasible p v.
Proof.
  intros H D [S V]. split; [|exact V]. intros c nc Hc Hnc.
  destruct (C47_deactivation_exact_pf extra n m p s active H) as (model & added & B & _ & _ & _ & A).
  pose proof B as B'. apply build_comps in B'. unfold create_abstract_model in B'. apply add_all_sound in B' as (_ & _ & F).
  assert (I : In nc (pyomo_components p)) by (apply in_flat_map; eauto).
  destruct (Forall2_In_r _ _ _ _ F I) as (a & A1 & A2 & _). rewrite <- A2. apply (A a A1); [|split; auto].
  rewrite D. intros d [].
Qed.

Lemma C68_simulated_baseline_pf : forall extra n m p s active v data,
  create_instance p extra n m (Some s) = Ok active -> sim_deactivated s = [] -> solution_of p active v ->
  In ("relative_abatement"%string, data) (sim_fixed s) ->
  (forall r, In r (regions p) -> exists f, data r = Some f /\ forall t, model_step p t -> f (year p t) = 0) ->
  forall t r, model_step p t -> In r (regions p) ->
    0 <= relative_abatement v t r <= 1/1000 /\
    ((1 <= t)%nat -> 0 <= baseline v t r -> 999/1000 * baseline v t r <= regional_emissions v t r <= baseline v t r) /\
    (0 < MAC_beta p -> 0 <= LOT_rate p -> 0 <= MAC_scaling p r -> 0 <= MAC_gamma p -> 0 <= baseline v t r ->
       0 <= area_under_MAC v t r <= learning_factor v t * MAC_scaling p r * MAC_gamma p * Rpower (1/1000) (MAC_beta p + 1) / (MAC_beta p + 1) * baseline v t r).
Proof.
  intros extra n m p s active v data H D S I Z t r Ht Hr.
  pose proof (sim_solution_feasible _ _ _ _ _ _ _ H D S) as F.
  assert (A : 0 <= relative_abatement v t r <= 1/1000).
  { split; [apply (q_bounds_r p v F t r Ht Hr)|].
    destruct (C47_fixed_regional_variable_pf extra n m p s active v v_relative_abatement data t r H S I) as (f & E & _ & U); auto.
    - rewrite D. intros k [].
    - destruct (Z r Hr) as (f' & E' & Z'). rewrite E' in E. injection E as <-. rewrite Z' in U by auto. unfold relative_abatement. lra. }
  split; [exact A|]. split.
  - intros T B. unfold regional_emissions. rewrite (q_abatement p v F t r) by (auto; unfold model_step in Ht; lia).
    fold (relative_abatement v t r) (baseline v t r). change (rval v v_relative_abatement t r) with (relative_abatement v t r). change (rval v v_baseline t r) with (baseline v t r). nra.
  - intros Hb HL HM HG B. unfold area_under_MAC. rewrite (q_area p v F t r Ht Hr).
    change (rval v v_relative_abatement t r) with (relative_abatement v t r). change (rval v v_baseline t r) with (baseline v t r).
    change (gval v g_learning_factor t) with (learning_factor v t).
    pose proof (learning_pos p v t F Ht ltac:(lra)) as L.
    assert (K : 0 <= learning_factor v t * MAC_scaling p r * MAC_gamma p) by (repeat apply Rmult_le_pos; auto; lra).
    assert (IB : 0 < / (MAC_beta p + 1)) by (apply Rinv_0_lt_compat; lra).
    assert (P : 0 <= pypow (relative_abatement v t r) (MAC_beta p + 1) <= Rpower (1/1000) (MAC_beta p + 1)).
    { destruct A as [[A0|A0] A1].
      - rewrite pypow_pos by auto. split; [apply Rlt_le, exp_pos|apply Rpower_le_base; lra].
      - rewrite <- A0, pypow_apow by lra. unfold apow. destruct (Rlt_dec 0 0); [lra|]. split; [lra|apply Rlt_le, exp_pos]. }
    unfold Rdiv. split.
    + repeat apply Rmult_le_pos; auto; lra.
    + apply Rmult_le_compat_r; auto. apply Rmult_le_compat_r; [lra|]. apply Rmult_le_compat_l; [exact K|apply P].
Qed.
