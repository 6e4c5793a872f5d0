(** C73: a temperature target is a carbon budget. *)
From Coq Require Import Reals List Lra Lia.
From Verif Require Import ModelFacts SoftFacts ModelSpec Equations Equations2 Transfer WelfareSpec PolicySpec PolicyLemmas TargetSpec.
Open Scope R_scope.
Set Bullet Behavior "Strict Subproofs".

Definition goal_met (p : pars) (b T : option R) (nz : bool) (v : point) : Prop := forall t, model_step p t -> 2100 <= year p t ->
  (forall B, b = Some B -> cumulative_emissions v t <= B) /\ (forall x, T = Some x -> temperature v t <= x) /\
  (forall B, b = Some B -> nz = true -> global_emissions v t <= 0).
Lemma goal_iff p b T nz v : 1 <= perc_reversible p ->
  (feasible (with_goal p b T nz) v <-> feasible (with_goal p None None false) v /\ goal_met p b T nz v).
Proof.
  intros PR. assert (RV : Rltb (perc_reversible p) 1 = false) by (apply Rltb_false; lra).
  assert (Y : forall b T nz t, year (with_goal p b T nz) t = year p t) by reflexivity.
  split.
  - intros H. split.
    + transfer H; intros t Hq; exact I.
    + intros t Ht HY. unfold cumulative_emissions, temperature, global_emissions. split; [|split].
      * intros B ->. apply (q_budget (with_goal p (Some B) T nz) v H t B Ht eq_refl HY).
      * intros x ->. apply (q_target (with_goal p b (Some x) nz) v H t x Ht eq_refl HY).
      * intros B -> ->. apply (q_net_zero (with_goal p (Some B) T true) v H t B Ht eq_refl eq_refl HY).
  - intros [H G]. transfer H; match goal with K : holds_c _ _ _ (?C ?n _) |- holds_c _ _ _ (?C ?n _) => clear K end;
      intros t Hq; specialize (G t Hq).
    + unfold c_temperature_target. change (temperature_target (with_goal p b T nz)) with T. destruct T as [x|]; [|exact I]. rewrite Y.
      destruct (Rleb 2100 (year p t)) eqn:E; [|exact I]. apply Rleb_true in E. destruct (G E) as (_ & G2 & _). cbn [sat deno defd]. repeat split. apply G2. reflexivity.
    + unfold c_carbon_budget. change (budget (with_goal p b T nz)) with b. change (perc_reversible (with_goal p b T nz)) with (perc_reversible p). destruct b as [B0|]; [|exact I]. rewrite Y, RV.
      destruct (Rleb 2100 (year p t)) eqn:E; [|exact I]. apply Rleb_true in E. destruct (G E) as (G1 & _). cbn [sat deno defd]. repeat split.
      specialize (G1 B0 eq_refl). unfold cumulative_emissions in G1. lra.
    + unfold c_net_zero. change (budget (with_goal p b T nz)) with b. change (no_pos_after_budget_year (with_goal p b T nz)) with nz. destruct b as [B0|]; [|exact I]. rewrite Y.
      destruct (Rleb 2100 (year p t)) eqn:E; [|exact I]. destruct nz; [|exact I]. apply Rleb_true in E. destruct (G E) as (_ & _ & G3). cbn [andb sat deno defd]. repeat split. apply (G3 B0 eq_refl eq_refl).
Qed.
Lemma temp_goal p v t : feasible (with_goal p None None false) v -> model_step p t -> temperature v t = T0 p + TCRE p * cumulative_emissions v t.
Proof. intros F Ht. unfold temperature, cumulative_emissions. apply (q_temp (with_goal p None None false) v F t Ht). Qed.
Lemma reach p c T : 0 < TCRE p -> (T0 p + TCRE p * c <= T <-> c <= budget_for p T).
Proof.
  intros H. unfold budget_for. split; intros Q.
  - apply Rmult_le_reg_l with (1 := H). replace (TCRE p * ((T - T0 p) / TCRE p)) with (T - T0 p) by (field; lra). lra.
  - apply (Rmult_le_compat_l (TCRE p)) in Q; [|lra]. replace (TCRE p * ((T - T0 p) / TCRE p)) with (T - T0 p) in Q by (field; lra). lra.
Qed.

(** The plans under a temperature target are those under the budget that brings about that temperature. *)
Lemma C73_target_is_budget_pf : forall p T nz v, 0 < TCRE p -> 1 <= perc_reversible p ->
  (feasible (with_goal p None (Some T) nz) v <-> feasible (with_goal p (Some (budget_for p T)) None false) v).
Proof.
  intros p T nz v TC PR. rewrite (goal_iff p None (Some T) nz v PR), (goal_iff p (Some (budget_for p T)) None false v PR).
  split; intros [F G]; (split; [exact F|]); intros t Ht Y; destruct (G t Ht Y) as (G1 & G2 & _).
  - split; [|split]; [|intros; discriminate|intros; discriminate]. intros B E. injection E as <-. apply reach; [exact TC|]. rewrite <- (temp_goal p v t F Ht). apply G2. reflexivity.
  - split; [intros; discriminate|split]; [|intros; discriminate]. intros x E. injection E as <-. rewrite (temp_goal p v t F Ht). apply reach; [exact TC|]. apply G1. reflexivity.
Qed.
(** A budget with the rule of no emissions after the budget year is a temperature target with zero emissions from 2100 on. *)
Lemma C73_budget_is_target_pf : forall p B nz nz' v, 0 < TCRE p -> 1 <= perc_reversible p ->
  (feasible (with_goal p (Some B) None nz) v <-> feasible (with_goal p None (Some (T0 p + TCRE p * B)) nz') v /\ (nz = true -> net_zero_from_2100 p v)).
Proof.
  intros p B nz nz' v TC PR. rewrite (goal_iff p (Some B) None nz v PR), (goal_iff p None (Some (T0 p + TCRE p * B)) nz' v PR). split.
  - intros [F G]. split; [split; [exact F|]|].
    + intros t Ht Y. destruct (G t Ht Y) as (G1 & _). split; [intros; discriminate|split]; [|intros; discriminate]. intros x E. injection E as <-. rewrite (temp_goal p v t F Ht).
      apply Rplus_le_compat_l, Rmult_le_compat_l; [lra|]. apply G1. reflexivity.
    + intros N t Ht Y. apply (proj2 (proj2 (G t Ht Y)) B eq_refl N).
  - intros [[F G] N]. split; [exact F|]. intros t Ht Y. destruct (G t Ht Y) as (_ & G2 & _). split; [|split]; [|intros; discriminate|].
    + intros b E. injection E as <-. specialize (G2 _ eq_refl). rewrite (temp_goal p v t F Ht) in G2. apply Rmult_le_reg_l with (TCRE p); lra.
    + intros _ _ E. apply (N E t Ht Y).
Qed.
(** Of a budget and a target given together, only the tighter counts. *)
Lemma C73_tighter_goal_counts_pf : forall p B T nz v, 0 < TCRE p -> 1 <= perc_reversible p ->
  (feasible (with_goal p (Some B) (Some T) nz) v <-> feasible (with_goal p (Some (Rmin B (budget_for p T))) None nz) v).
Proof.
  intros p B T nz v TC PR. rewrite (goal_iff p (Some B) (Some T) nz v PR), (goal_iff p (Some (Rmin B (budget_for p T))) None nz v PR).
  split; intros [F G]; (split; [exact F|]); intros t Ht Y; destruct (G t Ht Y) as (G1 & G2 & G3).
  - split; [|split]; [|intros; discriminate|intros _ _ N; apply (G3 B eq_refl N)]. intros b E. injection E as <-. apply Rmin_glb; [apply G1; reflexivity|]. apply reach; [exact TC|].
    rewrite <- (temp_goal p v t F Ht). apply G2. reflexivity.
  - specialize (G1 _ eq_refl). split; [|split].
    + intros b E. injection E as <-. apply Rle_trans with (1 := G1). apply Rmin_l.
    + intros x E. injection E as <-. rewrite (temp_goal p v t F Ht). apply reach; [exact TC|]. apply Rle_trans with (1 := G1). apply Rmin_r.
    + intros _ _ N. apply (G3 _ eq_refl N).
Qed.
(** So they also have the same optimal plans ... *)
Lemma C73_same_optimal_plans_pf : forall p T nz v, 0 < TCRE p -> 1 <= perc_reversible p ->
  (optimal (with_goal p None (Some T) nz) v <-> optimal (with_goal p (Some (budget_for p T)) None false) v).
Proof.
  intros p T nz v TC PR. unfold optimal. rewrite (C73_target_is_budget_pf p T nz v TC PR).
  split; intros [F O]; (split; [exact F|]); intros w Fw; apply O; apply (C73_target_is_budget_pf p T nz w TC PR); exact Fw.
Qed.
(** ... and a target below the temperature of the first year, or a negative budget, cannot be met. *)
Lemma C73_unattainable_goal_pf : forall p T B nz b tt t v, 0 < TCRE p -> model_step p t -> 2100 <= year p t ->
  (T < T0 p -> ~ feasible (with_goal p b (Some T) nz) v) /\ (B < 0 -> ~ feasible (with_goal p (Some B) tt nz) v).
Proof.
  intros p T B nz b tt t v TC Ht Y. split; intros L F.
  - pose proof (q_target _ v F t T Ht eq_refl Y) as Q. rewrite (q_temp _ v F t Ht) in Q. pose proof (q_cum_nonneg _ v F t Ht) as N.
    change (TCRE (with_goal p b (Some T) nz)) with (TCRE p) in Q. change (T0 (with_goal p b (Some T) nz)) with (T0 p) in Q.
    apply (Rmult_le_compat_l (TCRE p)) in N; lra.
  - pose proof (q_budget _ v F t B Ht eq_refl Y) as [Q _]. pose proof (q_cum_nonneg _ v F t Ht) as N. lra.
Qed.
