(** Non-vacuity of C73: the plan of HotellingExample keeps to a budget, hence to a temperature target, and is optimal under both. *)
From Coq Require Import Reals List String Lra Lia.
From Verif Require Import ModelFacts ModelSpec WelfareSpec PolicySpec HotellingExample TargetSpec TargetLemmas.
Open Scope R_scope.
Set Bullet Behavior "Strict Subproofs".

Definition td_budget : R := 1200 - 1400/3 * (start 1 + start 2 + start 3).
Definition td_target : R := 12/10 + 62/100000 * td_budget.
Lemma td_goal : with_goal three_decades (Some td_budget) None false = three_decades.
Proof. reflexivity. Qed.
Lemma td_budget_for : budget_for three_decades td_target = td_budget.
Proof. unfold budget_for, td_target. cbn [T0 TCRE three_decades]. field. Qed.
Example C73_ex_goal : 0 < TCRE three_decades /\ 1 <= perc_reversible three_decades /\ 1.8 < td_target < 1.9 /\
  optimal (with_goal three_decades (Some (budget_for three_decades td_target)) None false) three_decades_plan /\
  optimal (with_goal three_decades None (Some td_target) true) three_decades_plan.
Proof.
  assert (C : 0 < TCRE three_decades) by (cbn; lra). assert (P : 1 <= perc_reversible three_decades) by (cbn; lra).
  assert (O : optimal (with_goal three_decades (Some (budget_for three_decades td_target)) None false) three_decades_plan) by (rewrite td_budget_for, td_goal; exact td_optimal).
  split; [exact C|]. split; [exact P|]. split; [|split; [exact O|apply (C73_same_optimal_plans_pf three_decades td_target true three_decades_plan C P), O]].
  unfold td_target, td_budget. pose proof (td_start 1 ltac:(lia)). pose proof (td_start 2 ltac:(lia)). pose proof (td_start 3 ltac:(lia)). lra.
Qed.
(** The horizon contains a step from 2100 on. *)
Example C73_ex_unattainable : model_step three_decades 3 /\ 2100 <= year three_decades 3 /\
  forall b v, ~ feasible (with_goal three_decades b (Some 1) true) v.
Proof.
  assert (M : model_step three_decades 3) by (unfold model_step; cbn; lia). assert (Y : 2100 <= year three_decades 3) by (unfold year; cbn; lra).
  split; [exact M|]. split; [exact Y|]. intros b v. apply (C73_unattainable_goal_pf three_decades 1 (-1) true b None 3 v); [cbn; lra|exact M|exact Y|cbn; lra].
Qed.
