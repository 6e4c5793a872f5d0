(** C72: problems of least cost are convex. *)
From Coq Require Import Reals List String Lra Lia.
From Verif Require Import ModelFacts SoftFacts ModelSpec PowFacts Equations Equations2 Build VarFacts EconLemmas BuildFacts BuildLemmas DefinedFacts
  SolveFacts ClimateSpec ClimateLemmas WelfareSpec WelfareLemmas MitigationLemmas TradeLemmas PolicySpec PolicyLemmas Simulate SimFacts ExistSpec ExistFacts ExistLemmas
  ReallocateSpec Reallocate Exchange HotellingSpec ConvexSpec Blend.
Import ListNotations.
Open Scope R_scope.
Set Bullet Behavior "Strict Subproofs".

(** Plans are compared by their costs. *)
Lemma better_costs p v w : feasible p v -> feasible p w -> objective p = globalcosts -> dmg_module p = nodamage ->
  (better p v w <-> plan_costs p v <= plan_costs p w).
Proof.
  intros F F' OB DM. pose proof (proj2 (C44_objective_direction_pf p v w F F') OB) as H. cbv beta zeta in H. rewrite H. unfold plan_costs.
  assert (E : forall x, feasible p x -> discounted p (fun s => total p (mitigation_costs x s) + total p (fun r => damage_costs x s r * GDP_gross x s r)) (tf p) = discounted p (fun s => total p (mitigation_costs x s)) (tf p)).
  { intros x Fx. unfold discounted. apply steps_sum_ext. intros s Hs. f_equal. assert (Z : total p (fun r => damage_costs x s r * GDP_gross x s r) = 0).
    { unfold total. rewrite (Rsum_ext _ (fun _ => 0)); [apply Rsum_const0|]. intros q Hq. unfold damage_costs. rewrite (q_nodamage p x Fx s q DM ltac:(unfold model_step; lia) Hq). ring. }
    rewrite Z. ring. }
  rewrite (E v F), (E w F'). reflexivity.
Qed.
(** The policy settings of a configuration *)
Definition policy_of (p : pars) : policy := {| pol_budget := budget p; pol_temperature := temperature_target p; pol_inertia_global := inertia_global p;
  pol_inertia_regional := inertia_regional p; pol_min_global := global_min_level p; pol_min_regional := regional_min_level p;
  pol_non_increasing := non_increasing_after_2100 p; pol_net_zero := no_pos_after_budget_year p |}.
Lemma with_own p : with_policy (policy_of p) p = p.
Proof. destruct p. reflexivity. Qed.
Lemma mix_own l q : mix_policy l q q = q.
Proof.
  assert (M : forall o, mix_limit l o o = o) by (intros [x|]; cbn; [rewrite mix_same|]; reflexivity).
  destruct q. unfold mix_policy. simpl PolicySpec.pol_budget. simpl. rewrite !M, !Bool.andb_diag. reflexivity.
Qed.

(** In between two plans, for two policies, there is a plan for the policy in between with every region's abatement in between, that costs no more than the mean of the two. *)
Lemma C72_plans_in_between_pf : forall p q1 q2 v w l, least_cost_setting p -> sensible_data p -> moderate_warming p ->
  usable_choices (with_policy q1 p) -> usable_choices (with_policy q2 p) ->
  feasible (with_policy q1 p) v -> feasible (with_policy q2 p) w -> 0 <= l <= 1 ->
  exists z, feasible (with_policy (mix_policy l q1 q2) p) z /\
    (forall t r, (1 <= t <= tf p)%nat -> In r (regions p) ->
       relative_abatement z t r = mix l (relative_abatement v t r) (relative_abatement w t r) /\
       regional_emissions z t r = mix l (regional_emissions v t r) (regional_emissions w t r)) /\
    (forall t, model_step p t -> temperature z t = mix l (temperature v t) (temperature w t)) /\
    plan_costs p z <= mix l (plan_costs p v) (plan_costs p w).
Proof.
  intros p q1 q2 v w l LC (NR & SD & U & Al & ND & MG & MS & BE) MW U1 U2 F1 F2 L.
  exists (sim (with_policy (mix_policy l q1 q2) p) (between l v w) (cum_between l v w) (fun _ => 0)).
  split; [apply b_feasible; auto|]. split; [|split].
  - intros t r Ht Hr. split.
    + unfold relative_abatement at 1. cbn [rval sim]. destruct t as [|t]; [lia|]. reflexivity.
    + unfold regional_emissions at 1. cbn [rval sim]. apply b_em; auto. unfold model_step; lia.
  - intros t Ht. unfold temperature. cbn [gval sim]. rewrite (q_temp _ v F1 t Ht), (q_temp _ w F2 t Ht). unfold s_temp, cum_between, cumulative_emissions, mix. cbn [T0 TCRE with_policy]. ring.
  - apply b_plan_costs; auto.
Qed.

(** So what it costs at least to keep to a policy is convex in the policy: half a step costs at most half of it, and each further step of the same size costs at least as much as the one before. *)
Lemma C72_costs_convex_in_policy_pf : forall p q1 q2 v w z l, least_cost_setting p -> sensible_data p -> moderate_warming p ->
  usable_choices (with_policy q1 p) -> usable_choices (with_policy q2 p) ->
  optimal (with_policy q1 p) v -> optimal (with_policy q2 p) w -> 0 <= l <= 1 -> optimal (with_policy (mix_policy l q1 q2) p) z ->
  plan_costs p z <= mix l (plan_costs p v) (plan_costs p w).
Proof.
  intros p q1 q2 v w z l LC SD MW U1 U2 [F1 _] [F2 _] L [Fz Oz].
  destruct (C72_plans_in_between_pf p q1 q2 v w l LC SD MW U1 U2 F1 F2 L) as (x & Fx & _ & _ & Cx).
  apply Rle_trans with (2 := Cx). apply (better_costs (with_policy (mix_policy l q1 q2) p) z x Fz Fx); [apply LC|apply LC|apply Oz; exact Fx].
Qed.

(** The optimal plan is unique: two optimal plans have the same abatement wherever abatement has a price. *)
Lemma C72_unique_abatement_pf : forall p v w t r, least_cost_setting p -> sensible_data p -> moderate_warming p -> 0 < MAC_gamma p ->
  optimal p v -> optimal p w -> (1 <= t <= tf p)%nat -> In r (regions p) -> 0 < MAC_scaling p r -> 0 < baseline_emissions p t r ->
  relative_abatement v t r = relative_abatement w t r.
Proof.
  intros p v w t r LC (NR & SD & U & Al & ND & MG & MS & BE) MW G [Fv Ov] [Fw Ow] Ht Hr S B.
  destruct (Req_dec (relative_abatement v t r) (relative_abatement w t r)) as [E|N]; [exact E|exfalso].
  assert (Fv' : feasible (with_policy (policy_of p) p) v) by (rewrite with_own; exact Fv). assert (Fw' : feasible (with_policy (policy_of p) p) w) by (rewrite with_own; exact Fw).
  assert (U' : usable_choices (with_policy (policy_of p) p)) by (rewrite with_own; exact U).
  pose proof (b_feasible p (policy_of p) (policy_of p) (1/2) v w Fv' Fw' ltac:(lra) LC NR SD U' U' Al MG MS BE MW) as Fz.
  pose proof (b_plan_costs_lt p (policy_of p) (policy_of p) (1/2) v w Fv' Fw' ltac:(lra) LC NR U' MG MS BE t r ltac:(lra) G Ht Hr S B N) as LT.
  rewrite mix_own, with_own in Fz. rewrite mix_own, with_own in LT. set (z := sim p _ _ _) in *.
  pose proof (proj1 (better_costs p v z Fv Fz ltac:(apply LC) ltac:(apply LC)) (Ov z Fz)) as C1.
  pose proof (proj1 (better_costs p w z Fw Fz ltac:(apply LC) ltac:(apply LC)) (Ow z Fz)) as C2. unfold mix in LT. lra.
Qed.
(** If that is so everywhere, also emissions, temperatures, carbon prices and the costs of abatement are the same. *)
Lemma C72_unique_plan_pf : forall p v w, least_cost_setting p -> sensible_data p -> moderate_warming p -> costly_everywhere p ->
  optimal p v -> optimal p w ->
  (forall t r, (1 <= t <= tf p)%nat -> In r (regions p) -> relative_abatement v t r = relative_abatement w t r /\ carbonprice v t r = carbonprice w t r /\
     area_under_MAC v t r = area_under_MAC w t r) /\
  (forall t, model_step p t -> (forall r, In r (regions p) -> regional_emissions v t r = regional_emissions w t r) /\ global_emissions v t = global_emissions w t /\
     cumulative_emissions v t = cumulative_emissions w t /\ temperature v t = temperature w t).
Proof.
  intros p v w LC SD MW (G & CE) Ov Ow. assert (A : forall t r, (1 <= t <= tf p)%nat -> In r (regions p) -> relative_abatement v t r = relative_abatement w t r).
  { intros t r Ht Hr. destruct (CE t r ltac:(unfold model_step; lia) Hr) as [S B]. apply (C72_unique_abatement_pf p v w t r); auto. }
  destruct SD as (NR & SD & U & Al & ND & MG & MS & BE). destruct Ov as [Fv _]. destruct Ow as [Fw _].
  assert (Fv' : feasible (with_policy (policy_of p) p) v) by (rewrite with_own; exact Fv). assert (Fw' : feasible (with_policy (policy_of p) p) w) by (rewrite with_own; exact Fw).
  assert (EM : forall t r, model_step p t -> In r (regions p) -> regional_emissions v t r = regional_emissions w t r).
  { intros t r Ht Hr. destruct t as [|t].
    - unfold regional_emissions. rewrite (q_emissions0 p v Fv r Hr), (q_emissions0 p w Fw r Hr). reflexivity.
    - assert (Ht' : (1 <= S t <= tf p)%nat) by (unfold model_step in Ht; lia).
      rewrite (b_em_of p LC (policy_of p) v (S t) r Fv' Ht' Hr), (b_em_of p LC (policy_of p) w (S t) r Fw' Ht' Hr), (A (S t) r Ht' Hr). reflexivity. }
  assert (GE : forall t, model_step p t -> global_emissions v t = global_emissions w t).
  { intros t Ht. unfold global_emissions. rewrite (q_global p v Fv t Ht), (q_global p w Fw t Ht). apply Rsum_ext. intros r Hr. apply EM; auto. }
  assert (CU : forall t, model_step p t -> cumulative_emissions v t = cumulative_emissions w t).
  { induction t as [|t IH]; intros Ht; unfold cumulative_emissions in *.
    - rewrite (q_cum0 p v Fv), (q_cum0 p w Fw). reflexivity.
    - assert (M : model_step p t) by (unfold model_step in *; lia). pose proof (GE t M) as G1. pose proof (GE (S t) Ht) as G2. unfold global_emissions in G1, G2.
      rewrite (q_cum p v Fv t Ht), (q_cum p w Fw t Ht), (IH M), G1, G2. reflexivity. }
  split.
  - intros t r Ht Hr. assert (M : model_step p t) by (unfold model_step; lia). split; [apply A; auto|].
    destruct (b_price_of p LC NR (policy_of p) v t r Fv' M Hr) as [P1 P2]. destruct (b_price_of p LC NR (policy_of p) w t r Fw' M Hr) as [P3 P4].
    rewrite P1, P2, P3, P4, (A t r Ht Hr). auto.
  - intros t Ht. split; [intros r Hr; apply EM; auto|]. split; [apply GE; auto|]. split; [apply CU; auto|].
    pose proof (CU t Ht) as C. unfold temperature, cumulative_emissions in *. rewrite (q_temp p v Fv t Ht), (q_temp p w Fw t Ht), C. reflexivity.
Qed.
(** A plan that cannot be improved by small changes of abatement is optimal. *)
Lemma C72_local_optimum_is_optimal_pf : forall p v, least_cost_setting p -> sensible_data p -> moderate_warming p -> locally_optimal p v -> optimal p v.
Proof.
  intros p v LC SD MW [Fv (e & He & H)]. split; [exact Fv|]. intros w Fw.
  assert (U : usable_choices p) by apply SD.
  set (l := Rmin 1 (e / (5/2))). assert (Q : 0 < e / (5/2)) by (apply Rdiv_lt_0_compat; lra). assert (L : 0 < l <= 1) by (unfold l; split; [apply Rmin_glb_lt; lra|apply Rmin_l]).
  assert (LE : l * (5/2) <= e). { apply Rle_trans with (e / (5/2) * (5/2)); [apply Rmult_le_compat_r; [lra|apply Rmin_r]|right; field]. }
  destruct (C72_plans_in_between_pf p (policy_of p) (policy_of p) v w l LC SD MW) as (z & Fz & Az & _ & Cz); rewrite ?with_own; auto; try lra.
  rewrite mix_own, with_own in Fz.
  assert (CL : close p e v z).
  { intros t r Ht Hr. assert (M : model_step p t) by (unfold model_step; lia). destruct (q_bounds_r p v Fv t r M Hr) as (B1 & _). destruct (q_bounds_r p w Fw t r M Hr) as (B2 & _).
    rewrite (proj1 (Az t r Ht Hr)). unfold relative_abatement, mix. set (x := rval v v_relative_abatement t r) in *. set (y := rval w v_relative_abatement t r) in *.
      replace ((1 - l) * x + l * y - x) with (l * (y - x)) by ring. rewrite Rabs_mult, (Rabs_right l) by lra. apply Rle_trans with (2 := LE).
      apply Rmult_le_compat_l; [lra|]. apply Rabs_le. lra. }
  pose proof (proj1 (better_costs p v z Fv Fz ltac:(apply LC) ltac:(apply LC)) (H z Fz CL)) as C.
  apply (better_costs p v w Fv Fw); [apply LC|apply LC|]. unfold mix in Cz.
  assert (l * plan_costs p v <= l * plan_costs p w) by lra. apply Rmult_le_reg_l with l; lra.
Qed.
