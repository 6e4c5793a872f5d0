(** C56: reported indicators *)
From Coq Require Import Lra Lia.
From Verif Require Import ModelFacts SoftFacts ModelSpec Equations Equations2 Build VarFacts.
Set Bullet Behavior "Strict Subproofs".

Ltac fgo p v F c tac := let H := fresh in
  assert (H : In c (all_constraints p)) by tac; apply (feas_c p v c F) in H; cbn [holds_c] in H; revert H.
Ltac simp H := hnf in H; cbn [sat deno defd con_result] in H; rewrite ?deno_esum in H; cbn [deno] in H.

(** Names of the indicators. *)
Definition relative_cumulative_emissions (v : point) := gval v g_emission_relative_cumulative.
Definition global_rel_mitigation_costs (v : point) := gval v g_global_rel_mitigation_costs.
Definition emission_reduction_per_cost_unit (v : point) := gval v g_global_emission_reduction_per_cost_unit.
Definition cost_per_emission_reduction_unit (v : point) := gval v g_global_cost_per_emission_reduction_unit.
(** the largest distance between the smooth maximum with 0 and the maximum itself, at scale 1 *)
Definition smoothing_error : R := 1 / (25 * PI).

Lemma q_per_cost p v t : feasible p v -> (0 < t <= tf p)%nat ->
  gval v g_global_emission_reduction_per_cost_unit t
  = Rsum (rval v v_regional_emission_reduction t) (regions p) / smin 1 (Rsum (rval v v_mitigation_costs t) (regions p)).
Proof.
  intros F. fgo p v F (GlobalC (Some "global_emission_reduction_per_cost_unit") (c_emission_reduction_per_cost_unit p)) in_mitigation.
  intros H [H0 Ht]. specialize (H _ Ht). unfold c_emission_reduction_per_cost_unit in H.
  rewrite (proj2 (Nat.ltb_lt 0 t)) in H by auto. destruct H as (_ & _ & H). revert H.
  cbn [sat deno]. rewrite deno_soft_min, !deno_esum. intros H. exact H.
Qed.
Lemma q_cost_per p v t : feasible p v -> (0 < t <= tf p)%nat ->
  gval v g_global_cost_per_emission_reduction_unit t
  = Rsum (rval v v_mitigation_costs t) (regions p) / smin 1 (Rsum (rval v v_regional_emission_reduction t) (regions p)).
Proof.
  intros F. fgo p v F (GlobalC (Some "global_cost_per_emission_reduction_unit") (c_cost_per_emission_reduction_unit p)) in_mitigation.
  intros H [H0 Ht]. specialize (H _ Ht). unfold c_cost_per_emission_reduction_unit in H.
  rewrite (proj2 (Nat.ltb_lt 0 t)) in H by auto. destruct H as (_ & _ & H). revert H.
  cbn [sat deno]. rewrite deno_soft_min, !deno_esum. intros H. exact H.
Qed.

(** Mitigation costs relative to GDP: by region, and globally as a GDP-weighted average, so the global figure
    lies between the smallest and the largest regional figure. *)
Lemma C56_relative_mitigation_costs_pf : forall p v t, feasible p v -> model_step p t ->
  (forall r, In r (regions p) ->
     GDP_gross v t r <> 0 /\ rel_mitigation_costs v t r * GDP_gross v t r = mitigation_costs v t r /\
     (if Nat.eqb t 0 then 0 else rel_mitigation_costs_min_level p) <= rel_mitigation_costs v t r) /\
  total p (GDP_gross v t) <> 0 /\
  global_rel_mitigation_costs v t * total p (GDP_gross v t) = total p (mitigation_costs v t) /\
  (forall lo hi, (forall r, In r (regions p) -> 0 < GDP_gross v t r /\ lo <= rel_mitigation_costs v t r <= hi) ->
     lo <= global_rel_mitigation_costs v t <= hi).
Proof.
  intros p v t F Ht. unfold GDP_gross, rel_mitigation_costs, mitigation_costs, global_rel_mitigation_costs, total.
  destruct (q_global_rel_mitigation p v F t Ht) as [E N].
  assert (R1 : forall r, In r (regions p) -> rval v v_GDP_gross t r <> 0 /\
     rval v v_rel_mitigation_costs t r * rval v v_GDP_gross t r = rval v v_mitigation_costs t r).
  { intros r Hr. destruct (q_rel_mitigation p v F t r Ht Hr) as [-> N1]. split; auto. field. auto. }
  split; [|split; [exact N|split]].
  - intros r Hr. destruct (R1 r Hr) as [A B]. split; auto. split; auto.
    pose proof (q_rel_mitigation_min p v F t r Ht Hr) as M. destruct t; cbn [Nat.ltb Nat.leb Nat.eqb] in *; lra.
  - rewrite E. field. auto.
  - intros lo hi H. rewrite E.
    assert (P : 0 < Rsum (rval v v_GDP_gross t) (regions p)).
    { apply Rsum_pos.
      - intros Z. rewrite Z in N. cbn in N. lra.
      - intros r Hr. apply H; auto. }
    assert (L : lo * Rsum (rval v v_GDP_gross t) (regions p) <= Rsum (rval v v_mitigation_costs t) (regions p)).
    { rewrite <- Rsum_scal. apply Rsum_le. intros r Hr. destruct (R1 r Hr) as [_ <-]. destruct (H r Hr). nra. }
    assert (U : Rsum (rval v v_mitigation_costs t) (regions p) <= hi * Rsum (rval v v_GDP_gross t) (regions p)).
    { rewrite <- Rsum_scal. apply Rsum_le. intros r Hr. destruct (R1 r Hr) as [_ <-]. destruct (H r Hr). nra. }
    split.
    + apply Rmult_le_reg_r with (1 := P). unfold Rdiv. rewrite Rmult_assoc, Rinv_l by auto. lra.
    + apply Rmult_le_reg_r with (1 := P). unfold Rdiv. rewrite Rmult_assoc, Rinv_l by auto. lra.
Qed.

(** Cumulative emissions relative to the baseline: 1 in the first year, the ratio afterwards; with no
    abatement ever it stays 1. *)
Lemma C56_relative_cumulative_emissions_pf : forall p v t, feasible p v -> model_step p t ->
  relative_cumulative_emissions v 0 = 1 /\
  ((0 < t)%nat -> cumulative_global_baseline_emissions p t <> 0 /\
     relative_cumulative_emissions v t * cumulative_global_baseline_emissions p t = cumulative_emissions v t).
Proof.
  intros p v t F Ht. unfold relative_cumulative_emissions, cumulative_emissions. split.
  - fgo p v F (GlobalInitC None c_relative_cumulative_emissions_init) in_emissions. intros H. simp H. tauto.
  - intros H0. destruct (q_relcum p v F t) as [-> N]; [split; auto|]. split; auto. field. auto.
Qed.

(** The two unit-cost indicators underestimate the exact ratio, by a bounded amount. *)
Lemma ratio_bounds a c : 0 <= a -> 0 < c ->
  a / (c + smoothing_error) <= a / smin 1 c <= a / c.
Proof.
  intros Ha Hc. pose proof (smin_gap 1 ltac:(lra) c) as G. rewrite Rmax_left in G by lra.
  replace (25 / 1) with 25 in G by lra. unfold smoothing_error.
  assert (0 < smin 1 c) by lra.
  split; unfold Rdiv; (apply Rmult_le_compat_l; [auto|]); apply Rinv_le_contravar; lra.
Qed.
Lemma C56_unit_costs_pf : forall p v t, feasible p v -> (0 < t)%nat -> model_step p t ->
  let reductions := total p (emission_reduction v t) in
  let costs := total p (mitigation_costs v t) in
  (0 <= reductions -> 0 < costs ->
     reductions / (costs + smoothing_error) <= emission_reduction_per_cost_unit v t <= reductions / costs) /\
  (0 < reductions -> 0 <= costs ->
     costs / (reductions + smoothing_error) <= cost_per_emission_reduction_unit v t <= costs / reductions) /\
  (0 < reductions -> 0 < costs ->
     0 < emission_reduction_per_cost_unit v t * cost_per_emission_reduction_unit v t < 1) /\
  (reductions = 0 -> emission_reduction_per_cost_unit v t = 0) /\
  (costs = 0 -> cost_per_emission_reduction_unit v t = 0).
Proof.
  intros p v t F H0 Ht. unfold emission_reduction_per_cost_unit, cost_per_emission_reduction_unit.
  rewrite (q_per_cost p v t F) by (split; auto). rewrite (q_cost_per p v t F) by (split; auto).
  unfold total, emission_reduction, mitigation_costs.
  set (a := Rsum (rval v v_regional_emission_reduction t) (regions p)).
  set (c := Rsum (rval v v_mitigation_costs t) (regions p)). cbn zeta.
  split; [|split; [|split; [|split]]].
  - apply ratio_bounds.
  - intros Ha Hc. apply ratio_bounds; auto.
  - intros Ha Hc. pose proof (smin_gt 1 ltac:(lra) a). pose proof (smin_gt 1 ltac:(lra) c).
    replace (a / smin 1 c * (c / smin 1 a)) with ((a / smin 1 a) * (c / smin 1 c)) by (field; lra).
    assert (A : 0 < a / smin 1 a < 1).
    { split; [apply Rdiv_lt_0_compat; lra|]. apply Rmult_lt_reg_r with (smin 1 a); [lra|]. unfold Rdiv. rewrite Rmult_assoc, Rinv_l; lra. }
    assert (C : 0 < c / smin 1 c < 1).
    { split; [apply Rdiv_lt_0_compat; lra|]. apply Rmult_lt_reg_r with (smin 1 c); [lra|]. unfold Rdiv. rewrite Rmult_assoc, Rinv_l; lra. }
    nra.
  - intros ->. unfold Rdiv. lra.
  - intros ->. unfold Rdiv. lra.
Qed.
(** When the costs are not positive (imported reductions, negative minimum level) the indicator is not the ratio:
    it is at least 25*pi times the reductions, and positive although the ratio is negative. *)
Lemma C56_unit_costs_nonpositive_costs_refuted_pf : forall p v t, feasible p v -> (0 < t)%nat -> model_step p t ->
  0 < total p (emission_reduction v t) -> total p (mitigation_costs v t) <= 0 ->
  25 * PI * total p (emission_reduction v t) <= emission_reduction_per_cost_unit v t.
Proof.
  intros p v t F H0 Ht. unfold emission_reduction_per_cost_unit. rewrite (q_per_cost p v t F) by (split; auto).
  unfold total, emission_reduction, mitigation_costs.
  set (a := Rsum _ _). set (c := Rsum _ _). intros Ha Hc.
  pose proof (smin_gap 1 ltac:(lra) c) as G. rewrite Rmax_right in G by lra. replace (25 / 1) with 25 in G by lra.
  pose proof PI_pos. assert (P : 0 < smin 1 c) by lra.
  apply Rmult_le_reg_r with (1 := P). unfold Rdiv. rewrite Rmult_assoc with (r1 := a), Rinv_l by lra.
  assert (K : smin 1 c * (25 * PI) <= 1).
  { replace 1 with (1 / (25 * PI) * (25 * PI)) at 2 by (field; lra). apply Rmult_le_compat_r; lra. }
  nra.
Qed.

(** Mortality: quadratic in temperature; nothing else in the model depends on it. *)
Definition quadratic (abc : R * R * R) (x : R) : R := let '(a, b, c) := abc in a + b * x + c * x ^ 2.
Definition is_mortality (x : rvar) : bool :=
  match x with v_mortality_oldest | v_mortality_older | v_mortality_young | v_mortality_cost_oldest => true | _ => false end.
Lemma C56_mortality_pf : forall p v t r, feasible p v -> dmg_module p = COACCH -> model_step p t -> In r (regions p) ->
  rval v v_mortality_oldest t r = quadratic (mort_oldest p r) (temperature v t) /\
  rval v v_mortality_older t r = quadratic (mort_older p r) (temperature v t) /\
  rval v v_mortality_young t r = quadratic (mort_young p r) (temperature v t) /\
  rval v v_mortality_cost_oldest t r = 13000 * rval v v_mortality_oldest t r * population p t r.
Proof.
  intros p v t r F D Ht Hr. pose proof (q_mortality p v F D t r Ht Hr) as H. unfold quadratic, temperature.
  destruct (mort_oldest p r) as [[? ?] ?], (mort_older p r) as [[? ?] ?], (mort_young p r) as [[? ?] ?].
  destruct H as (H1 & H2 & H3 & H4). repeat split; auto. rewrite H4. lra.
Qed.
Definition mortality_point (p : pars) (oldest older young : region -> R * R * R) (v : point) : point := {|
  gval := gval v;
  rval := fun x t r => match x with
    | v_mortality_oldest => quadratic (oldest r) (temperature v t)
    | v_mortality_older => quadratic (older r) (temperature v t)
    | v_mortality_young => quadratic (young r) (temperature v t)
    | v_mortality_cost_oldest => quadratic (oldest r) (temperature v t) * population p t r * 10000 * (13/10)
    | _ => rval v x t r end |}.
Lemma ok_sat p v w o : rvars (ok_g p) (ok_r p) o ->
  (forall g t, declared_g p g = true -> (t <= tf p)%nat -> gval v g t = gval w g t) ->
  (forall x t r, declared_r p x = true -> (t <= tf p)%nat -> In r (regions p) -> rval v x t r = rval w x t r) ->
  sat v o -> sat w o.
Proof.
  intros K HG HR. apply (sat_agree v w). destruct o as [|a op b|x]; cbn [rvars] in *; auto.
  assert (EG' : forall g t, ok_g p g t -> gval v g t = gval w g t) by (intros g t []; auto).
  assert (ER' : forall x t r, ok_r p x t r -> rval v x t r = rval w x t r) by (intros x t r (? & ? & ?); auto).
  destruct K as [K1 K2]. split; (eapply evars_mono; [exact EG'|exact ER'|eassumption]).
Qed.
Lemma C56_mortality_only_reported_pf : forall p v oldest older young, feasible p v ->
  exists w, feasible (with_mortality oldest older young p) w /\
    objective_value (with_mortality oldest older young p) w = objective_value p v /\
    (forall g t, gval w g t = gval v g t) /\
    (forall x t r, is_mortality x = false -> rval w x t r = rval v x t r).
Proof.
  intros p v mo ml my F. exists (mortality_point p mo ml my v). split; [|split; [|split]].
  2: reflexivity. 2: reflexivity. 2: intros [] t r H; try reflexivity; discriminate.
  set (p' := with_mortality mo ml my p). set (w := mortality_point p mo ml my v).
  set (q := with_dmg_module nodamage p).
  assert (K : forall l, (forall c, In c l -> In c (all_constraints p)) ->
     Forall (fun c => forall o, In o (outs q c) -> rvars (ok_g q) (ok_r q) o) l ->
     forall c nc, In c l -> In nc (to_pyomo c) -> con_holds (tf p) (regions p) w (snd nc)).
  { intros l Hl Hok c nc Hc Hnc. rewrite Forall_outs in Hok.
    destruct F as [A _]. specialize (A c nc (Hl c Hc) Hnc). intros o Ho. specialize (A o Ho). revert A. apply (ok_sat q).
    - apply (Hok c); auto. unfold outs. apply in_flat_map. eauto.
    - intros; reflexivity.
    - intros x t r D Ht Hr. destruct x; try reflexivity; discriminate D. }
  split.
  - intros c nc Hc. change (tf p') with (tf p). change (regions p') with (regions p).
    rewrite <- all_in in Hc.
    destruct Hc as [Hc|[Hc|[Hc|[Hc|[Hc|[Hc|[Hc|[Hc|[Hc|Hc]]]]]]]]].
    + apply (K (emissions_constraints p)); auto; [intros; rewrite <- all_in; tauto|apply (ok_emissions q)].
    + apply (K (slr_constraints p)); auto; [intros; rewrite <- all_in; tauto|apply (ok_slr q)].
    + revert nc. rewrite holds_c_spec. revert c Hc. unfold damage_constraints. change (dmg_module p') with (dmg_module p).
      pose proof (fun c => feas_c p v c F) as A.
      assert (D : forall d x x0 lhs k r, evars (ok_g q) (ok_r q) x -> evars (ok_g q) (ok_r q) x0 ->
                   deno v lhs = deno w lhs -> defd w lhs ->
                   sat v (con_result lhs (do e <- damage_fct d x x0 r; Ok (ENum k * e)%E)) ->
                   sat w (con_result lhs (do e <- damage_fct d x x0 r; Ok (ENum k * e)%E))).
      { intros d x x0 lhs k r Hx Hx0 El Dl. unfold damage_fct.
        destruct (functional_form d x r) as [a|] eqn:Ea; cbn [bind con_result]; [|auto].
        destruct (functional_form d x0 r) as [b|] eqn:Eb; cbn [bind con_result]; [|auto].
        assert (Ag : forall e, evars (ok_g q) (ok_r q) e -> deno v e = deno w e /\ (defd v e <-> defd w e)).
        { intros e He. apply deno_agree. eapply evars_mono; [| |exact He].
          - intros; reflexivity.
          - intros y t' r' (Dy & _ & _). destruct y; try reflexivity; discriminate Dy. }
        destruct (Ag a (ok_functional q _ _ _ _ Ea Hx)) as [Ea1 Ea2].
        destruct (Ag b (ok_functional q _ _ _ _ Eb Hx0)) as [Eb1 Eb2].
        cbn [sat deno defd]. rewrite El, Ea1, Eb1, Ea2, Eb2. tauto. }
      unfold damage_constraints in A.
      assert (B : forall c, In c (damage_constraints p) -> holds_c (tf p) (regions p) v c).
      { intros c Hc. apply A. rewrite <- all_in. tauto. }
      unfold damage_constraints in B. destruct (dmg_module p).
      * intros c Hc. repeat (destruct Hc as [<-|Hc]); try (destruct Hc; fail).
        -- exact (B _ (or_introl eq_refl)).
        -- intros t r Ht Hr. apply D; try reflexivity; try exact I.
           ++ vgo.
           ++ exact (B _ (or_intror (or_introl eq_refl)) t r Ht Hr).
        -- intros t r Ht Hr. apply D; try reflexivity; try exact I.
           ++ vgo; change (tf q) with (tf p); lia.
           ++ vgo; change (tf q) with (tf p); lia.
           ++ exact (B _ (or_intror (or_intror (or_introl eq_refl))) t r Ht Hr).
        -- intros t r Ht Hr. unfold c_mortality. destruct (mort_oldest p' r) as [[a b] c] eqn:E.
           split; [exact I|]. split; [repeat split|]. change (mort_oldest p') with mo in E.
           cbn [deno rval w mortality_point gval]. unfold quadratic. rewrite E. reflexivity.
        -- intros t r Ht Hr. unfold c_mortality. destruct (mort_older p' r) as [[a b] c] eqn:E.
           split; [exact I|]. split; [repeat split|]. change (mort_older p') with ml in E.
           cbn [deno rval w mortality_point gval]. unfold quadratic. rewrite E. reflexivity.
        -- intros t r Ht Hr. unfold c_mortality. destruct (mort_young p' r) as [[a b] c] eqn:E.
           split; [exact I|]. split; [repeat split|]. change (mort_young p') with my in E.
           cbn [deno rval w mortality_point gval]. unfold quadratic. rewrite E. reflexivity.
        -- intros t r Ht Hr. split; [exact I|]. split; [repeat split|]. reflexivity.
      * intros c [<-|[]]. exact (B _ (or_introl eq_refl)).
    + apply (K (mitigation_constraints p)); auto; [intros; rewrite <- all_in; tauto|apply (ok_mitigation q)].
    + apply (K (trade_constraints p)); auto; [intros; rewrite <- all_in; tauto|apply (ok_trade q)].
    + apply (K (transfer_constraints p)); auto; [intros; rewrite <- all_in; tauto|apply (ok_transfer q)].
    + apply (K (effort_constraints p)); auto; [intros; rewrite <- all_in; tauto|apply (ok_effort q)].
    + apply (K (cobbdouglas_constraints p)); auto; [intros; rewrite <- all_in; tauto|apply (ok_cobb q)].
    + apply (K (welfare_constraints p)); auto; [intros; rewrite <- all_in; tauto|apply (ok_welfare q)].
    + apply (K (objective_constraints p)); auto; [intros; rewrite <- all_in; tauto|apply (ok_objective q)].
  - exact (proj2 F).
Qed.
