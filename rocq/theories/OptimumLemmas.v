(** C67: an optimal plan exists whenever the constraints can be met at all. *)
From Coq Require Import Lra Lia.
From Coquelicot Require Import Coquelicot.
From Verif Require Import ModelFacts SoftFacts ModelSpec PowFacts Equations Equations2 ClimateSpec ClimateLemmas WelfareSpec Build VarFacts EconLemmas BuildFacts BuildLemmas DefinedFacts Compact Bounds Optimum.
Open Scope R_scope.
Set Bullet Behavior "Strict Subproofs".

(** *** Specification *)
(** The damages of warming cannot become arbitrarily large benefits. *)
Definition benefits_limited (p : pars) : Prop :=
  dmg_module p = COACCH -> forall r, In r (regions p) -> exists m, forall x, T0 p <= x ->
    m <= damage_scale_factor p * damage_curve (dmg_noslr p) r (x - 6/10).
(** Very low consumption is very bad: the savings rate leaves something to consume, and the elasticity of marginal utility exceeds 1
    (with the general inequality-averse welfare function, inequality aversion exceeds 1 as well). *)
Definition poverty_matters (p : pars) : Prop :=
  sr p < 1 /\ 1 < elasmu p /\ (welfare p = inequal_aversion_general -> 1 < inequal_aversion p).

(** *** Emissions that do not depend on income *)
Section Exogenous.
  Variable p : pars.
  Hypothesis NR : numeric_ranges p.
  Hypothesis SD : sound_data p.
  Hypothesis U : usable_choices p.
  Hypothesis AL : 0 <= alpha p < 1.
  Hypothesis CI : use_carbon_intensity p = false.
  Notation A := (feasible p).
  Notation regs := (regions p).
  Let FA : forall v, A v -> feasible p v := fun v H => H.

  Lemma x_base t r : (t <= tf p)%nat -> In r regs -> bd A (fun v => rval v v_baseline t r).
  Proof.
    intros T R. apply (bd_ext A _ (fun _ => baseline_emissions p t r)); [|apply bd_c]. intros v V. rewrite (q_baseline p v V t r T R), CI. reflexivity.
  Qed.
  Lemma x_em t r : (t <= tf p)%nat -> In r regs -> bd A (fun v => rval v v_regional_emissions t r).
  Proof.
    intros T R. destruct t as [|t].
    - apply (bd_ext A _ (fun _ => baseline_emissions p 0 r)); [|apply bd_c]. intros v V. apply (q_emissions0 p v V r R).
    - apply (bd_ext A _ (fun v => (1 - rval v v_relative_abatement (S t) r) * rval v v_baseline (S t) r)); [intros v V; apply (q_abatement p v V (S t) r (conj (Nat.lt_0_succ t) T) R)|].
      apply bd_mult; [|apply x_base; auto]. apply (bd_minus A (fun _ => 1)); [apply bd_c|apply (ab_bd p A FA); auto].
  Qed.
  Lemma x_ge t : (t <= tf p)%nat -> bd A (fun v => gval v g_global_emissions t).
  Proof.
    intros T. apply (bd_ext A _ (fun v => Rsum (fun r => rval v v_regional_emissions t r) regs)); [intros v V; apply (q_global p v V t T)|].
    apply bd_sum. intros r R. apply x_em; auto.
  Qed.
  Lemma x_cum t : (t <= tf p)%nat -> bd A (fun v => gval v g_cumulative_emissions t).
  Proof.
    induction t as [|t IH]; intros T.
    - apply (bd_ext A _ (fun _ => 0)); [intros v V; apply (q_cum0 p v V)|apply bd_c].
    - apply (bd_ext A _ (fun v => gval v g_cumulative_emissions t + (if cum_trapz p then dt p / 2 * (gval v g_global_emissions (S t) + gval v g_global_emissions t) else dt p * gval v g_global_emissions (S t)))).
      + intros v V. rewrite (q_cum p v V t T). destruct (cum_trapz p); field.
      + apply bd_plus; [apply IH; lia|]. destruct (cum_trapz p).
        * apply (bd_mult A (fun _ => dt p / 2)); [apply bd_c|]. apply bd_plus; apply x_ge; lia.
        * apply (bd_mult A (fun _ => dt p)); [apply bd_c|]. apply x_ge; lia.
  Qed.
  Lemma x_T t : (t <= tf p)%nat -> bd A (fun v => gval v g_temperature t).
  Proof.
    intros T. apply (bd_ext A _ (fun v => T0 p + TCRE p * gval v g_cumulative_emissions t)); [intros v V; apply (q_temp p v V t T)|].
    apply (bd_plus A (fun _ => T0 p)); [apply bd_c|]. apply (bd_mult A (fun _ => TCRE p)); [apply bd_c|apply x_cum, T].
  Qed.
  Lemma x_d t r : (t <= tf p)%nat -> In r regs -> bd A (fun v => rval v v_damage_costs t r).
  Proof.
    intros T R. assert (DM : dmg_module p = COACCH \/ dmg_module p = nodamage) by (destruct (dmg_module p); auto). destruct DM as [D|D].
    - pose proof SD as (_ & _ & _ & _ & L1 & _). pose proof U as (_ & _ & _ & _ & _ & _ & _ & KF). destruct (KF D r R) as [K1 _].
      apply (bd_ext A _ (fun v => rval v v_damage_costs_non_slr t r + rval v v_damage_costs_slr t r)); [intros v V; apply (q_dm_total p v V D t r T R)|].
      apply bd_plus.
      + apply (bd_ext A _ (fun v => damage_scale_factor p * (damage_curve (dmg_noslr p) r (gval v g_temperature t - 6/10) - damage_curve (dmg_noslr p) r (T0 p - 6/10)))).
        { intros v V. destruct (q_dm_noslr p v V D t r T R) as (e1 & e2 & E1 & E2 & ->). rewrite (form_curve v _ _ _ _ E1), (form_curve v _ _ _ _ E2). reflexivity. }
        apply (bd_mult A (fun _ => damage_scale_factor p)); [apply bd_c|]. apply (bd_minus A _ (fun _ => damage_curve (dmg_noslr p) r (T0 p - 6/10))); [|apply bd_c].
        destruct (bd_minus A _ (fun _ => 6/10) (x_T t T) (bd_c A _)) as [X HX].
        destruct (curve_bounded (dmg_noslr p) r X (L1 D r R) K1) as [M HM]. exists M. intros v V. apply HM, HX, V.
      + exists (7/10). intros v V. destruct (q_bounds_r p v V t r T R) as (_ & _ & B & _). specialize (B D). apply Rabs_le. lra.
    - apply (bd_ext A _ (fun _ => 0)); [intros v V; apply (q_nodamage p v V t r D T R)|apply bd_c].
  Qed.
  Lemma x_net t r : (t <= tf p)%nat -> In r regs -> bd A (fun v => rval v v_GDP_net t r).
  Proof.
    intros T R.
    assert (NS := net_share p A NR SD FA (fun _ _ t r T R => bd_lo A _ (x_d t r T R)) (fun _ _ t r T R => bd_up A _ (x_d t r T R))).
    assert (GB : forall t r, (t <= tf p)%nat -> In r regs -> bd A (fun v => rval v v_GDP_gross t r))
      by (intros s q S Q; apply (economy p A NR SD AL FA (fun t r H => NS t r (proj2 H)) s q S Q)).
    assert (DG : forall r, In r regs -> bd A (fun v => rval v v_damage_costs t r * rval v v_GDP_gross t r)) by (intros q Q; apply bd_mult; [apply x_d|apply GB]; auto).
    apply (net_bd p A FA GB t T r R); [| |apply DG, R].
    - apply (mit_bd p A NR SD U FA GB t T); [|exact R]. intros q Q.
      apply (bd_ext A _ (fun v => rval v v_carbonprice t q * (rval v v_relative_abatement t q / (MAC_beta p + 1)) * rval v v_baseline t q)); [intros v V; apply (area_price p A NR FA v t q V T Q)|].
      apply bd_mult; [|apply x_base; auto]. apply bd_mult; [apply (price_bd p A FA); auto|].
      apply (bd_mult A _ (fun _ => / (MAC_beta p + 1))); [apply (ab_bd p A FA); auto|apply bd_c].
    - apply (tr_bd p A FA t T); [|exact R]. intros _ q Q. apply bd_up, DG, Q.
  Qed.
End Exogenous.

(** *** Emissions that follow income (the default) *)
Lemma pow_floor e B : e < 0 -> exists d, 0 < d /\ forall y, 0 < y -> Rpower y e <= B -> d <= y.
Proof.
  intros E. destruct (Rle_dec B 0) as [N|N].
  - exists 1. split; [lra|]. intros y Y H. pose proof (exp_pos (e * ln y)). unfold Rpower in H. lra.
  - exists (Rpower B (/ e)). split; [apply exp_pos|]. intros y Y H. apply Rnot_lt_le. intros L.
    assert (X : Rpower (Rpower B (/ e)) e < Rpower y e).
    { unfold Rpower at 1 3. apply exp_increasing. apply ln_increasing in L; [|exact Y].
      apply Ropp_lt_cancel. replace (- (e * ln y)) with ((- e) * ln y) by ring. replace (- (e * ln (Rpower B (/ e)))) with ((- e) * ln (Rpower B (/ e))) by ring.
      apply Rmult_lt_compat_l; lra. }
    rewrite Rpower_mult, Rinv_l, Rpower_1 in X by lra. lra.
Qed.

Section Endogenous.
  Variable p : pars.
  Variable v0 : point.
  Hypothesis NR : numeric_ranges p.
  Hypothesis SD : sound_data p.
  Hypothesis U : usable_choices p.
  Hypothesis AL : 0 <= alpha p < 1.
  Hypothesis TC : 0 <= TCRE p.
  Notation A := (fun v => feasible p v /\ better p v v0).
  Notation regs := (regions p).
  Let FA : forall v, A v -> feasible p v := fun v H => proj1 H.

  Lemma e_T v t : A v -> (t <= tf p)%nat -> T0 p <= gval v g_temperature t.
  Proof.
    intros [V _] T. rewrite (q_temp p v V t T). pose proof (q_cum_nonneg p v V t T). pose proof (Rmult_le_pos _ _ TC H). lra.
  Qed.
  Lemma e_d (BL : benefits_limited p) t r : (t <= tf p)%nat -> In r regs -> lo A (fun v => rval v v_damage_costs t r).
  Proof.
    intros T R. assert (DM : dmg_module p = COACCH \/ dmg_module p = nodamage) by (destruct (dmg_module p); auto). destruct DM as [D|D].
    - destruct (BL D r R) as [m B]. exists (m - damage_scale_factor p * damage_curve (dmg_noslr p) r (T0 p - 6/10) - 5/10). intros v V.
      rewrite (q_dm_total p v (FA v V) D t r T R). destruct (q_dm_noslr p v (FA v V) D t r T R) as (e1 & e2 & E1 & E2 & ->).
      rewrite (form_curve v _ _ _ _ E1), (form_curve v _ _ _ _ E2). cbn [deno]. specialize (B _ (e_T v t V T)).
      destruct (q_bounds_r p v (FA v V) t r T R) as (_ & _ & Q & _). specialize (Q D). lra.
    - exists 0. intros v V. rewrite (q_nodamage p v (FA v V) t r D T R). lra.
  Qed.
  Lemma e_share (BL : benefits_limited p) (PI : transfer p = globaldamagepool -> ignore_damages p = false) t r : (t <= tf p)%nat -> In r regs -> exists C, 0 <= C /\ forall v, A v -> rval v v_GDP_net t r <= C * rval v v_GDP_gross t r.
  Proof.
    apply (net_share p A NR SD FA).
    - intros _ _ s q S Q. apply (e_d BL); auto.
    - intros E G. rewrite (PI E) in G. discriminate G.
  Qed.
  (** From here on: net income is at most a multiple of gross income. *)
  Hypothesis SH : forall t r, (t <= tf p)%nat -> In r regs -> exists C, 0 <= C /\ forall v, A v -> rval v v_GDP_net t r <= C * rval v v_GDP_gross t r.
  Lemma e_gross t r : (t <= tf p)%nat -> In r regs -> bd A (fun v => rval v v_GDP_gross t r).
  Proof. intros T R. apply (economy p A NR SD AL FA (fun t r H => SH t r (proj2 H)) t r T R). Qed.
  Lemma e_up t r : (t <= tf p)%nat -> In r regs -> up A (fun v => rval v v_GDP_net t r).
  Proof.
    intros T R. destruct (SH t r T R) as (C & C0 & H). apply (up_le A _ (fun v => C * rval v v_GDP_gross t r)); [exact H|].
    apply up_scal; [exact C0|apply bd_up, e_gross; auto].
  Qed.
  Lemma e_dg (BL : benefits_limited p) t r : (t <= tf p)%nat -> In r regs -> lo A (fun v => rval v v_damage_costs t r * rval v v_GDP_gross t r).
  Proof.
    intros T R. destruct (e_d BL t r T R) as [m L]. apply (lo_ge A _ (fun v => m * rval v v_GDP_gross t r)).
    - intros v V. apply Rmult_le_compat_r; [apply Rlt_le, (gp p A NR SD FA v t r V T R)|apply L, V].
    - apply bd_lo, (bd_mult A (fun _ => m)); [apply bd_c|apply e_gross; auto].
  Qed.
  (** The first year is given. *)
  Lemma e_first r : In r regs -> bd A (fun v => rval v v_GDP_net 0 r).
  Proof.
    intros R. assert (T : (0 <= tf p)%nat) by lia.
    assert (DB : forall q, In q regs -> bd A (fun v => rval v v_damage_costs 0 q * rval v v_GDP_gross 0 q)).
    { intros q Q. apply bd_mult; [|apply e_gross; auto]. apply (bd_ext A _ (fun _ => 0)); [|apply bd_c]. intros v V.
      assert (DM : dmg_module p = COACCH \/ dmg_module p = nodamage) by (destruct (dmg_module p); auto). destruct DM as [D|D].
      - exact (proj2 (proj2 (proj2 (proj2 (proj2 (C39_damages_follow_curve_pf p v 0 q (FA v V) D T Q))) eq_refl))).
      - apply (q_nodamage p v (FA v V) 0 q D T Q). }
    apply (net_bd p A FA e_gross 0 T r R); [| |apply DB, R].
    - apply (mit_bd p A NR SD U FA e_gross 0 T); [|exact R]. intros q Q. apply (bd_ext A _ (fun _ => 0)); [|apply bd_c].
      intros v V. rewrite (area_price p A NR FA v 0 q V T Q), (q_carbonprice0 p v (FA v V) q Q). ring.
    - apply (tr_bd p A FA 0 T); [|exact R]. intros _ q Q. apply bd_up, DB, Q.
  Qed.
  Lemma weight_pos t : 0 < dt p * exp (- PRTP p * (year p (S t) - beginyear p)).
  Proof. apply Rmult_lt_0_compat; [apply NR|apply exp_pos]. Qed.

  (** Minimising costs: no plan with enormous damages or costs is better than the given one. *)
  Lemma e_costs : benefits_limited p -> objective p = globalcosts -> forall t r, (0 < t <= tf p)%nat -> In r regs -> bd A (fun v => rval v v_GDP_net t r).
  Proof.
    intros BL OB t r T R.
    assert (LM : forall s, (s <= tf p)%nat -> lo A (fun v => Rsum (fun q => rval v v_mitigation_costs s q) regs)) by (intros s S; apply lo_sum; intros q Q; apply (mit_lo p A NR SD FA e_gross); auto).
    assert (LD : forall s, (s <= tf p)%nat -> lo A (fun v => Rsum (fun q => rval v v_damage_costs s q * rval v v_GDP_gross s q) regs)) by (intros s S; apply lo_sum; intros q Q; apply (e_dg BL); auto).
    assert (UX : up A (fun v => Rsum (fun q => rval v v_mitigation_costs t q) regs + Rsum (fun q => rval v v_damage_costs t q * rval v v_GDP_gross t q) regs)).
    { apply (terms_up A (fun t v => gval v g_NPV t) (fun t v => Rsum (fun q => rval v v_mitigation_costs t q) regs + Rsum (fun q => rval v v_damage_costs t q * rval v v_GDP_gross t q) regs)
        (fun t => dt p * exp (- PRTP p * (year p (S t) - beginyear p))) (tf p)); auto.
      - intros s. apply weight_pos.
      - intros v V. apply (q_NPV0 p v (FA v V)).
      - intros s v S V. rewrite (q_NPV p v (FA v V) s S), OB. reflexivity.
      - intros s S. apply lo_plus; [apply LM|apply LD]; lia.
      - exists (gval v0 g_NPV (tf p)). intros v [_ B]. unfold better, maximise, objective_value in B. rewrite OB in B. exact B. }
    assert (UD : forall q, In q regs -> up A (fun v => rval v v_damage_costs t q * rval v v_GDP_gross t q)).
    { apply (part_up A (fun q v => rval v v_damage_costs t q * rval v v_GDP_gross t q)); [intros q Q; apply (e_dg BL); [lia|auto]|].
      apply (up_le A _ (fun v => (Rsum (fun q => rval v v_mitigation_costs t q) regs + Rsum (fun q => rval v v_damage_costs t q * rval v v_GDP_gross t q) regs) + - Rsum (fun q => rval v v_mitigation_costs t q) regs)); [intros; lra|].
      apply up_plus; [exact UX|apply up_opp, LM; lia]. }
    assert (UM : forall q, In q regs -> up A (fun v => rval v v_mitigation_costs t q)).
    { apply (part_up A (fun q v => rval v v_mitigation_costs t q)); [intros q Q; apply (mit_lo p A NR SD FA e_gross); [lia|auto]|].
      apply (up_le A _ (fun v => (Rsum (fun q => rval v v_mitigation_costs t q) regs + Rsum (fun q => rval v v_damage_costs t q * rval v v_GDP_gross t q) regs) + - Rsum (fun q => rval v v_damage_costs t q * rval v v_GDP_gross t q) regs)); [intros; lra|].
      apply up_plus; [exact UX|apply up_opp, LD; lia]. }
    apply (net_bd p A FA e_gross t ltac:(lia) r R).
    - apply up_lo_bd; [apply UM, R|apply (mit_lo p A NR SD FA e_gross); [lia|auto]].
    - apply (tr_bd p A FA t ltac:(lia)); [|exact R]. intros _. exact UD.
    - apply up_lo_bd; [apply UD, R|apply (e_dg BL); [lia|auto]].
  Qed.

  (** Maximising utility: no plan with enormous poverty is better than the given one. *)
  Section Utility.
    Hypothesis OB : objective p = utility.
    Hypothesis PM : poverty_matters p.
    Lemma pop_pos t r : (t <= tf p)%nat -> In r regs -> 0 < population p t r.
    Proof. intros T R. pose proof SD as (_ & PD & _). apply (proj2 (PD r R) t T). Qed.
    Lemma welfare_lo : (forall t, (0 < t <= tf p)%nat -> up A (fun v => gval v g_yearly_welfare t)) ->
      forall t, (0 < t <= tf p)%nat -> lo A (fun v => gval v g_yearly_welfare t).
    Proof.
      intros UW t T. apply (terms_lo A (fun t v => gval v g_NPV t) (fun t v => gval v g_yearly_welfare t) (fun t => dt p * exp (- PRTP p * (year p (S t) - beginyear p))) (tf p)); auto.
      - intros s. apply weight_pos.
      - intros v V. apply (q_NPV0 p v (FA v V)).
      - intros s v S V. rewrite (q_NPV p v (FA v V) s S), OB. reflexivity.
      - exists (gval v0 g_NPV (tf p)). intros v [_ B]. unfold better, maximise, objective_value in B. rewrite OB in B. exact B.
    Qed.
    (** a lower bound on per-capita consumption (through the smooth minimum) is one on net income *)
    Lemma consumption_lo t r : (t <= tf p)%nat -> In r regs -> lo A (fun v => rval v v_consumption t r / population p t r) -> lo A (fun v => rval v v_GDP_net t r).
    Proof.
      intros T R [m H]. pose proof (pop_pos t r T R) as P. destruct PM as (S1 & _). exists (m * population p t r / (1 - sr p)). intros v V.
      specialize (H v V). rewrite (q_consumption p v (FA v V) t r T R) in H.
      apply Rmult_le_reg_r with (1 - sr p); [lra|]. replace (m * population p t r / (1 - sr p) * (1 - sr p)) with (m * population p t r) by (field; lra).
      apply Rmult_le_compat_r with (r := population p t r) in H; [|lra].
      replace ((1 - sr p) * rval v v_GDP_net t r / population p t r * population p t r) with ((1 - sr p) * rval v v_GDP_net t r) in H by (field; lra). lra.
    Qed.
    Lemma smin_lo f d : 0 < d -> (forall v, A v -> d <= smin 1 (f v)) -> lo A f.
    Proof. intros D H. destruct (smin_tail d D) as [X HX]. exists X. intros v V. apply HX, H, V. Qed.
    Lemma util_floor eta (f : point -> R) : 1 < eta -> lo A (fun v => (Rpower (smin 1 (f v)) (1 - eta) - 1) / (1 - eta)) -> lo A f.
    Proof.
      intros E [m H]. destruct (pow_floor (1 - eta) (1 + m * (1 - eta)) ltac:(lra)) as (d & D & HD).
      apply (smin_lo f d D). intros v V. specialize (H v V). apply HD; [apply smin_pos; lra|].
      set (P := Rpower (smin 1 (f v)) (1 - eta)) in *. apply Rmult_le_compat_neg_l with (r := 1 - eta) in H; [|lra].
      replace ((1 - eta) * ((P - 1) / (1 - eta))) with (P - 1) in H by (field; lra). lra.
    Qed.
    Lemma util_ceiling eta x : 1 < eta -> (Rpower (smin 1 x) (1 - eta) - 1) / (1 - eta) <= 1 / (eta - 1).
    Proof.
      intros E. pose proof (exp_pos ((1 - eta) * ln (smin 1 x))) as P. fold (Rpower (smin 1 x) (1 - eta)) in P.
      replace ((Rpower (smin 1 x) (1 - eta) - 1) / (1 - eta)) with ((1 - Rpower (smin 1 x) (1 - eta)) * / (eta - 1)) by (field; lra).
      unfold Rdiv. apply Rmult_le_compat_r; [apply Rlt_le, Rinv_0_lt_compat; lra|lra].
    Qed.
    Lemma sp x : 0 < smin 1 x. Proof. apply smin_pos; lra. Qed.

    (** Welfare functions that look at the consumption of every region. *)
    Lemma e_utility_own t r : welfare p <> cost_minimising -> (0 < t <= tf p)%nat -> In r regs -> lo A (fun v => rval v v_GDP_net t r).
    Proof.
      intros NW T R. destruct PM as (S1 & E1 & I1). assert (T' : (t <= tf p)%nat) by lia.
      assert (W : welfare p = welfare_loss_minimising \/ welfare p = inequal_aversion_general) by (destruct (welfare p); auto; contradiction NW; reflexivity).
      destruct W as [W|W].
      - (* the sum of the regional utilities *)
        assert (UT : forall s, (s <= tf p)%nat -> forall v q, A v -> In q regs -> rval v v_utility s q = (Rpower (smin 1 (rval v v_consumption s q / population p s q)) (1 - elasmu p) - 1) / (1 - elasmu p)).
        { intros s S v q V Q. destruct (proj1 (q_wlm p v (FA v V) s W S) q Q) as [E _]. rewrite E, (pypow_pos _ _ (sp _)). reflexivity. }
        assert (UU : forall s q, (s <= tf p)%nat -> In q regs -> up A (fun v => population p s q * rval v v_utility s q)).
        { intros s q S Q. apply up_scal; [apply Rlt_le, pop_pos; auto|]. exists (1 / (elasmu p - 1)). intros v V. rewrite (UT s S v q V Q). apply util_ceiling, E1. }
        assert (WE : forall s, (s <= tf p)%nat -> forall v, A v -> gval v g_yearly_welfare s = Rsum (fun q => population p s q * rval v v_utility s q) regs) by (intros s S v V; apply (q_wlm p v (FA v V) s W S)).
        assert (LW : lo A (fun v => gval v g_yearly_welfare t)).
        { apply welfare_lo; [|exact T]. intros s S. apply (up_le A _ (fun v => Rsum (fun q => population p s q * rval v v_utility s q) regs)); [intros v V; rewrite (WE s ltac:(lia) v V); lra|].
          apply up_sum. intros q Q. apply UU; [lia|auto]. }
        apply (consumption_lo t r T' R), (util_floor (elasmu p) _ E1). pose proof (pop_pos t r T' R) as P.
        apply (lo_ge A _ (fun v => / population p t r * (population p t r * rval v v_utility t r))); [intros v V; rewrite (UT t T' v r V R); right; field; split; lra|].
        apply lo_scal; [apply Rlt_le, Rinv_0_lt_compat, P|].
        apply (part_lo A (fun q v => population p t q * rval v v_utility t q) regs); [intros q Q; apply UU; auto| |exact R].
        apply (lo_ge A _ (fun v => gval v g_yearly_welfare t)); [intros v V; rewrite (WE t T' v V); lra|exact LW].
      - (* inequality aversion *)
        specialize (I1 W). set (g := inequal_aversion p) in *. set (eta := elasmu p) in *. set (ex := (1 - eta) / (1 - g)).
        assert (EX : 0 < ex) by (unfold ex; replace ((1 - eta) / (1 - g)) with ((eta - 1) / (g - 1)) by (field; lra); apply Rdiv_lt_0_compat; lra).
        set (avg := fun s v => Rsum (rval v v_utility s) regs / Rsum (population p s) regs).
        assert (PP : forall s, (s <= tf p)%nat -> 0 < Rsum (population p s) regs) by (intros s S; apply Rsum_pos; [apply SD|intros q Q; apply pop_pos; auto]).
        assert (WE : forall s, (s <= tf p)%nat -> forall v, A v -> gval v g_yearly_welfare s = Rsum (population p s) regs * (Rpower (smin 1 (avg s v)) ex / (1 - eta))).
        { intros s S v V. destruct (q_iag p v (FA v V) s W S) as (_ & E & _). rewrite E, (pypow_pos _ _ (sp _)). reflexivity. }
        assert (LW : lo A (fun v => gval v g_yearly_welfare t)).
        { apply welfare_lo; [|exact T]. intros s S. specialize (PP s ltac:(lia)). exists 0. intros v V. rewrite (WE s ltac:(lia) v V).
          pose proof (exp_pos (ex * ln (smin 1 (avg s v)))) as X. fold (Rpower (smin 1 (avg s v)) ex) in X.
          assert (Y : Rpower (smin 1 (avg s v)) ex / (1 - eta) <= 0).
          { replace (Rpower (smin 1 (avg s v)) ex / (1 - eta)) with (- (Rpower (smin 1 (avg s v)) ex / (eta - 1))) by (field; lra).
            assert (0 < Rpower (smin 1 (avg s v)) ex / (eta - 1)) by (apply Rdiv_lt_0_compat; lra). lra. }
          nra. }
        specialize (PP t T'). destruct LW as [m LW].
        set (B := Rmax 1 (m * (1 - eta) / Rsum (population p t) regs)).
        assert (UA : forall v, A v -> avg t v <= Rpower B (/ ex)).
        { intros v V. specialize (LW v V). rewrite (WE t T' v V) in LW. set (P := Rpower (smin 1 (avg t v)) ex) in *.
          assert (PB : P <= B).
          { apply Rle_trans with (m * (1 - eta) / Rsum (population p t) regs); [|apply Rmax_r].
            apply Rmult_le_reg_r with (Rsum (population p t) regs); [exact PP|]. replace (m * (1 - eta) / Rsum (population p t) regs * Rsum (population p t) regs) with (m * (1 - eta)) by (field; lra).
            apply Rmult_le_compat_neg_l with (r := 1 - eta) in LW; [|lra].
            replace ((1 - eta) * (Rsum (population p t) regs * (P / (1 - eta)))) with (P * Rsum (population p t) regs) in LW by (field; lra). lra. }
          apply Rle_trans with (smin 1 (avg t v)); [apply Rlt_le, smin_gt; lra|].
          replace (smin 1 (avg t v)) with (Rpower P (/ ex)) by (unfold P; rewrite Rpower_mult, Rinv_r, Rpower_1; [reflexivity|apply sp|lra]).
          apply Rpower_le_base; [apply Rlt_le, Rinv_0_lt_compat, EX|apply exp_pos|exact PB]. }
        assert (UE : forall v q, A v -> In q regs -> rval v v_utility t q = population p t q * Rpower (smin 1 (rval v v_consumption t q / population p t q)) (1 - g)).
        { intros v q V Q. rewrite (proj1 (q_iag p v (FA v V) t W T') q Q), (pypow_pos _ _ (sp _)). reflexivity. }
        assert (UR : up A (fun v => rval v v_utility t r)).
        { apply (part_up A (fun q v => rval v v_utility t q) regs); [| |exact R].
          - intros q Q. exists 0. intros v V. rewrite (UE v q V Q). apply Rmult_le_pos; [apply Rlt_le, pop_pos; auto|apply Rlt_le, exp_pos].
          - exists (Rpower B (/ ex) * Rsum (population p t) regs). intros v V. specialize (UA v V). unfold avg in UA.
            apply Rmult_le_compat_r with (r := Rsum (population p t) regs) in UA; [|lra].
            replace (Rsum (rval v v_utility t) regs / Rsum (population p t) regs * Rsum (population p t) regs) with (Rsum (rval v v_utility t) regs) in UA by (field; lra). exact UA. }
        destruct UR as [m2 UR]. pose proof (pop_pos t r T' R) as P. destruct (pow_floor (1 - g) (m2 / population p t r) ltac:(lra)) as (d & D & HD).
        apply (consumption_lo t r T' R), (smin_lo _ d D). intros v V. apply HD; [apply sp|]. specialize (UR v V). rewrite (UE v r V R) in UR.
        apply Rmult_le_reg_l with (population p t r); [exact P|]. replace (population p t r * (m2 / population p t r)) with m2 by (field; lra). exact UR.
    Qed.
    Lemma e_utility t r : (0 < t <= tf p)%nat -> In r regs -> lo A (fun v => rval v v_GDP_net t r).
    Proof.
      intros T R. destruct PM as (S1 & E1 & I1). assert (T' : (t <= tf p)%nat) by lia.
      assert (W : welfare p <> cost_minimising \/ welfare p = cost_minimising) by (destruct (welfare p); auto; left; discriminate).
      destruct W as [W|W].
      - apply e_utility_own; auto.
      - (* utility of global consumption *)
        assert (WE : forall s, (s <= tf p)%nat -> forall v, A v -> gval v g_yearly_welfare s = Rsum (population p s) regs * ((Rpower (smin 1 (Rsum (rval v v_consumption s) regs / Rsum (population p s) regs)) (1 - elasmu p) - 1) / (1 - elasmu p))).
        { intros s S v V. destruct (q_cm p v (FA v V) s W S) as (_ & E & _). rewrite E, (pypow_pos _ _ (sp _)). reflexivity. }
        assert (PP : forall s, (s <= tf p)%nat -> 0 < Rsum (population p s) regs) by (intros s S; apply Rsum_pos; [apply SD|intros q Q; apply pop_pos; auto]).
        assert (LW : lo A (fun v => gval v g_yearly_welfare t)).
        { apply welfare_lo; [|exact T]. intros s S. specialize (PP s ltac:(lia)). exists (Rsum (population p s) regs * (1 / (elasmu p - 1))). intros v V.
          rewrite (WE s ltac:(lia) v V). apply Rmult_le_compat_l; [lra|]. apply util_ceiling, E1. }
        specialize (PP t T'). assert (LC : lo A (fun v => Rsum (rval v v_consumption t) regs / Rsum (population p t) regs)).
        { apply (util_floor (elasmu p) _ E1). apply (lo_ge A _ (fun v => / Rsum (population p t) regs * gval v g_yearly_welfare t)); [intros v V; rewrite (WE t T' v V); right; field; split; lra|].
          apply lo_scal; [apply Rlt_le, Rinv_0_lt_compat, PP|exact LW]. }
        assert (LS : lo A (fun v => Rsum (fun q => rval v v_consumption t q) regs)).
        { apply (lo_ge A _ (fun v => Rsum (population p t) regs * (Rsum (rval v v_consumption t) regs / Rsum (population p t) regs))); [intros v V; change (fun q => rval v v_consumption t q) with (rval v v_consumption t); right; field; lra|]. apply lo_scal; [lra|exact LC]. }
        assert (LR : lo A (fun v => rval v v_consumption t r)).
        { apply (part_lo A (fun q v => rval v v_consumption t q) regs); [|exact LS|exact R]. intros q Q.
          apply (up_le A _ (fun v => (1 - sr p) * rval v v_GDP_net t q)); [intros v V; rewrite (q_consumption p v (FA v V) t q T' Q); lra|]. apply up_scal; [lra|apply e_up; auto]. }
        apply (consumption_lo t r T' R). pose proof (pop_pos t r T' R) as P. apply (lo_ge A _ (fun v => / population p t r * rval v v_consumption t r)); [intros v V; right; field; lra|].
        apply lo_scal; [apply Rlt_le, Rinv_0_lt_compat, P|exact LR].
    Qed.
  End Utility.
End Endogenous.

(** *** Theorems *)
(** Emissions independent of income: every objective, welfare function, trade, transfer and effort-sharing scheme. *)
Lemma C67_optimum_exists_pf : forall p, numeric_ranges p -> sound_data p -> usable_choices p -> slr_logistic_ok p -> 0 <= alpha p < 1 ->
  use_carbon_intensity p = false -> (exists v, feasible p v) -> exists v, optimal p v.
Proof.
  intros p NR SD U SL AL CI [v0 F0]. apply (attained p v0 NR SD U SL F0). intros t r T R.
  destruct (x_net p NR SD U AL CI t r T R) as [M H]. exists M. intros v [V _]. apply H, V.
Qed.
(** Emissions that follow income. *)
Lemma C67_optimum_exists_endogenous_pf : forall p, numeric_ranges p -> sound_data p -> usable_choices p -> slr_logistic_ok p -> 0 <= alpha p < 1 ->
  0 <= TCRE p -> benefits_limited p -> (transfer p = globaldamagepool -> ignore_damages p = false) ->
  (objective p = utility -> poverty_matters p) -> (exists v, feasible p v) -> exists v, optimal p v.
Proof.
  intros p NR SD U SL AL TC BL PI PM [v0 F0]. apply (attained p v0 NR SD U SL F0). intros t r T R.
  pose proof (e_share p v0 NR SD TC BL PI) as SH.
  destruct t as [|t]; [apply (e_first p v0 NR SD U AL SH r R)|]. assert (T' : (0 < S t <= tf p)%nat) by lia.
  assert (O : objective p = globalcosts \/ objective p = utility) by (destruct (objective p); auto). destruct O as [O|O].
  - apply (e_costs p v0 NR SD AL TC SH BL O (S t) r T' R).
  - apply up_lo_bd; [apply (e_up p v0 NR SD AL SH (S t) r T R)|apply (e_utility p v0 NR SD AL SH O (PM O) (S t) r T' R)].
Qed.
