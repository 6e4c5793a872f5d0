(** Non-vacuity of C72: the plan of HotellingExample, which is the only optimal one, and policies with two different budgets. *)
From Coq Require Import Reals List String Lra Lia.
From Verif Require Import ModelFacts SoftFacts ModelSpec Build VarFacts EconLemmas BuildFacts BuildLemmas DefinedFacts
  ClimateSpec WelfareSpec PolicySpec PolicyLemmas Simulate HotellingSpec Example HotellingExample ConvexSpec Blend ConvexLemmas.
Import ListNotations.
Open Scope R_scope.
Set Bullet Behavior "Strict Subproofs".

Lemma td_setting : least_cost_setting three_decades.
Proof. do 5 (split; [reflexivity|]). cbn. split; [lra|reflexivity]. Qed.
Lemma td_moderate : moderate_warming three_decades.
Proof.
  cbn [T0 TCRE three_decades]. split; [cbn; lra|]. split; [cbn; lra|]. exists 40. split.
  - intros t Ht. unfold total. rewrite td_sum. cbn. lra.
  - cbn [dt T0 TCRE tf three_decades INR]. lra.
Qed.
Lemma td_costly : costly_everywhere three_decades.
Proof. split; [cbn; lra|]. intros t r Ht Hr. cbn. destruct (isA r); lra. Qed.
Example C72_ex_setting : least_cost_setting three_decades /\ sensible_data three_decades /\ moderate_warming three_decades /\ costly_everywhere three_decades /\
  optimal three_decades three_decades_plan /\ locally_optimal three_decades three_decades_plan.
Proof.
  split; [exact td_setting|]. split; [exact td_sensible|]. split; [exact td_moderate|]. split; [exact td_costly|]. split; [exact td_optimal|].
  destruct td_optimal as [F O]. split; [exact F|]. exists 1. split; [lra|]. intros w Fw _. apply O. exact Fw.
Qed.
(** Every optimal plan has these abatement levels. *)
Example C72_ex_unique : forall v, optimal three_decades v -> relative_abatement v 1 "A"%string = 1/10 /\ relative_abatement v 1 "B"%string = 4/30 /\
  carbonprice v 1 "A"%string = 2/10.
Proof.
  intros v O. pose proof (C72_unique_plan_pf three_decades v three_decades_plan td_setting td_sensible td_moderate td_costly O td_optimal) as [A _].
  destruct (A 1%nat "A"%string ltac:(cbn; lia) ltac:(cbn; auto)) as (A1 & A2 & _). destruct (A 1%nat "B"%string ltac:(cbn; lia) ltac:(cbn; auto)) as (B1 & _).
  rewrite A1, A2, B1. destruct C71_ex_hotelling as (_ & _ & _ & _ & P & _). rewrite P.
  unfold relative_abatement, three_decades_plan. cbn [rval sim td_plan isA String.eqb Ascii.eqb Bool.eqb]. unfold start. cbn [Nat.pred pow]. lra.
Qed.
(** Two policies: the budget of the example and one larger by 100 GtCO2 *)
Definition larger_budget : policy := {| pol_budget := Some (1200 - 1400/3 * (start 1 + start 2 + start 3) + 100); pol_temperature := None;
  pol_inertia_global := Some (-1/10); pol_inertia_regional := Some (-1/10); pol_min_global := Some (-20); pol_min_regional := Some (-10);
  pol_non_increasing := true; pol_net_zero := false |}.
Definition own_budget : policy := policy_of three_decades.
Lemma larger_feasible : feasible (with_policy larger_budget three_decades) three_decades_plan.
Proof.
  apply (C45_stricter_policy_fewer_solutions_pf three_decades own_budget larger_budget); [cbn; lra|intros r Hr; cbn; lra| |].
  - unfold stricter, own_budget, policy_of, larger_budget. cbn. repeat split; auto; lra.
  - unfold own_budget. rewrite with_own. apply td_optimal.
Qed.
Lemma larger_choices : usable_choices (with_policy larger_budget three_decades).
Proof. repeat split; intros; try discriminate; reflexivity || (cbn; lra). Qed.
Example C72_ex_two_policies : usable_choices (with_policy own_budget three_decades) /\ usable_choices (with_policy larger_budget three_decades) /\
  feasible (with_policy own_budget three_decades) three_decades_plan /\ feasible (with_policy larger_budget three_decades) three_decades_plan /\
  pol_budget (mix_policy (1/2) own_budget larger_budget) = Some (1250 - 1400/3 * (start 1 + start 2 + start 3)) /\ own_budget <> larger_budget.
Proof.
  split; [unfold own_budget; rewrite with_own; exact td_choices|]. split; [exact larger_choices|].
  split; [unfold own_budget; rewrite with_own; apply td_optimal|]. split; [exact larger_feasible|]. split.
  - unfold mix_policy, own_budget, larger_budget, policy_of, mix_limit. simpl. f_equal. unfold mix. field.
  - intros Q. apply (f_equal pol_budget) in Q. unfold own_budget, policy_of, larger_budget in Q. simpl in Q. injection Q as Q. lra.
Qed.
