(** C71: the path of carbon prices over time at plans of least cost. *)
From Coq Require Import Reals List String Lra Lia.
From Verif Require Import ModelFacts SoftFacts ModelSpec PowFacts Equations Equations2 Build VarFacts EconLemmas BuildFacts BuildLemmas DefinedFacts
  SolveFacts ClimateSpec ClimateLemmas WelfareSpec WelfareLemmas MitigationLemmas TradeLemmas PolicySpec PolicyLemmas Simulate SimFacts ExistSpec ExistFacts ExistLemmas
  ReallocateSpec Reallocate Exchange PriceLemmas HotellingSpec Reschedule.
Import ListNotations.
Open Scope R_scope.
Set Bullet Behavior "Strict Subproofs".

(** Less emitted so far: more has been learned. *)
Lemma learning_less p c c' t : numeric_ranges p -> LBD_rate p = 1 \/ (0 < LBD_rate p <= 1 /\ 0 < LBD_scaling p /\ c' t <= c t) -> s_learn p c' t <= s_learn p c t.
Proof.
  intros NR H. unfold s_learn. apply Rmult_le_compat_r.
  - unfold s_lot. left. apply Rdiv_lt_0_compat; [lra|]. apply pow_lt. destruct NR as (_ & _ & _ & _ & X). lra.
  - unfold s_lbd. set (x := smin 1 ((cumulative_global_baseline_emissions p t - c' t) / LBD_scaling p + 1)). set (y := smin 1 ((cumulative_global_baseline_emissions p t - c t) / LBD_scaling p + 1)).
    assert (X : 0 < x) by (apply smin_pos; lra). assert (Y : 0 < y) by (apply smin_pos; lra). rewrite !pypow_pos by auto.
    destruct H as [H|(H1 & H2 & H3)].
    + assert (E : log_LBD_rate p = 0) by (unfold log_LBD_rate; rewrite H, ln_1; unfold Rdiv; ring). rewrite E, !Rpower_O by auto. lra.
    + assert (L : y <= x). { apply smin_le; [lra|]. apply Rplus_le_compat_r. apply Rmult_le_compat_r; [left; apply Rinv_0_lt_compat; exact H2|lra]. }
      pose proof (log_LBD_nonpos p H1) as N.
      assert (LN : ln y <= ln x) by (destruct (Req_dec x y) as [->|Q]; [lra|left; apply ln_increasing; lra]).
      unfold Rpower. assert (LE : log_LBD_rate p * ln x <= log_LBD_rate p * ln y) by (assert (0 <= - log_LBD_rate p * (ln x - ln y)) by (apply Rmult_le_pos; lra); lra).
      destruct LE as [LT|EQ]; [left; apply exp_increasing; exact LT|right; rewrite EQ; reflexivity].
Qed.

(** A plan that costs at most [A] more in step [t1] and [B] more in step [t2], and nothing more in the others. *)
Lemma discounted_two p x y t1 t2 A B t : numeric_ranges p -> (1 <= t1 <= t)%nat -> (1 <= t2 <= t)%nat -> t1 <> t2 ->
  (forall s, (1 <= s <= t)%nat -> x s <= y s + same t1 s * A + same t2 s * B) ->
  discounted p x t <= discounted p y t + dt p * (present_value p t1 A + present_value p t2 B).
Proof.
  intros NR H1 H2 NE H. assert (HD : 0 <= dt p) by (left; apply NR). apply Rle_trans with (1 := discounted_le p _ _ t HD H).
  pose proof (discounted_differs p (fun s => y s + same t1 s * A) y t1 t H1) as D1.
  pose proof (discounted_differs p (fun s => y s + same t1 s * A + same t2 s * B) (fun s => y s + same t1 s * A) t2 t H2) as D2.
  assert (S : forall u, same u u = 1) by (intros u; unfold same; rewrite Nat.eqb_refl; reflexivity).
  assert (Z : forall u s, s <> u -> same u s = 0) by (intros u s N; destruct (same_cases u s) as [[Q _]|[_ Q]]; [contradiction|exact Q]).
  cbv beta in D1, D2. rewrite S in D1, D2. specialize (D1 ltac:(intros s _ N; rewrite Z by exact N; ring)). specialize (D2 ltac:(intros s _ N; rewrite (Z t2 s) by exact N; ring)).
  unfold present_value. lra.
Qed.

Section Hotelling.
  Variables (p : pars) (v : point).
  Hypotheses (O : optimal p v) (OB : objective p = globalcosts) (DM : dmg_module p = nodamage) (UC : use_carbon_intensity p = false)
    (ER : effort_regime p = noregime) (NT : transfer p = notransfer) (NR : numeric_ranges p) (SD : sound_data p) (U : usable_choices p)
    (Al : 0 <= alpha p < 1) (ND : NoDup (regions p)) (MS : forall q, In q (regions p) -> 0 <= MAC_scaling p q) (MG : 0 <= MAC_gamma p)
    (ML : rel_mitigation_costs_min_level p <= 0) (BE : forall u q, model_step p u -> In q (regions p) -> 0 <= baseline_emissions p u q)
    (CP : climate_positive p v).
  Lemma price_path tm tl rm rl : LBD_rate p = 1 \/ (0 < LBD_rate p <= 1 /\ 0 < LBD_scaling p /\ (tm < tl)%nat) -> tm <> tl ->
    (1 <= tm <= tf p)%nat -> (1 <= tl <= tf p)%nat -> year p tm < 2100 -> year p tl < 2100 -> In rm (regions p) -> In rl (regions p) ->
    0 < baseline_emissions p tm rm -> 0 < baseline_emissions p tl rl ->
    can_abate_more p v tm rm -> can_abate_less p v tl rl -> world_can_emit_less p v tm -> world_can_emit_more p v tl ->
    present_value p tl (carbonprice v tl rl) <= present_value p tm (carbonprice v tm rm).
  Proof.
    intros LB NE Tm Tl Ym Yl Hm Hl Em El Rm Rl Wm Wl. destruct O as [F OPT].
    assert (SL : slr_logistic_ok p) by (unfold slr_logistic_ok; rewrite DM; discriminate).
    assert (HD : 0 < dt p) by apply NR.
    set (km := exp (- PRTP p * (year p tm - beginyear p))). set (kl := exp (- PRTP p * (year p tl - beginyear p))).
    set (f := fun d => km * cost_of p v tm rm (/ baseline_emissions p tm rm * d) + kl * cost_of p v tl rl (- / baseline_emissions p tl rl * d)).
    assert (Df : derivable_pt_lim f 0 (km * carbonprice v tm rm - kl * carbonprice v tl rl)).
    { replace (km * carbonprice v tm rm - kl * carbonprice v tl rl) with (km * (carbonprice v tm rm * (baseline_emissions p tm rm * / baseline_emissions p tm rm)) + kl * (carbonprice v tl rl * (baseline_emissions p tl rl * - / baseline_emissions p tl rl))) by (field; lra).
      apply derivable_pt_lim_plus; apply (derivable_pt_lim_scal (fun d => cost_of p v _ _ (_ * d))); apply cost_deriv; auto. }
    pose proof (held_after p tm tl NE Tm Tl) as HA.
    assert (LRN : forall d t, 0 <= d -> model_step p t -> s_learn p (path p v tm tl d) t <= learning_factor v t).
    { intros d t D Ht. rewrite <- (r_learn p v F t Ht). apply learning_less; [exact NR|]. destruct LB as [LB|(L1 & L2 & L3)]; [left; exact LB|right].
      split; [exact L1|]. split; [exact L2|]. unfold path. assert (Q : held p tl t <= held p tm t).
      { destruct (Nat.le_gt_cases t tm) as [Q|Q]; [rewrite (held_before p tl t) by lia; apply (held_range p NR tm)|rewrite (HA tm t) by lia; apply (held_range p NR tl)]. }
      assert (0 <= d * (held p tm t - held p tl t)) by (apply Rmult_le_pos; lra). lra. }
    assert (N : soon (fun d => f 0 <= f d)).
    { eapply soon_imp; [apply (small_soon p v tm tl rm rl); auto|]. intros d D SM.
      pose proof (m_feasible p v tm tl rm rl F NR SD U SL Al DM UC ER NT ND MS MG ML BE NE Tm Tl Ym Yl Hm Hl Em El LRN d D SM) as Fw.
      pose proof (m_cost_other p v tm tl rm rl F NR Al UC MS MG BE NE Tm Tl LRN d D SM) as CO.
      pose proof (m_cost_more p v tm tl rm rl NR Al UC MS MG BE NE Tm Tl Ym Hm Em Rm Wm LRN d D SM) as CM.
      pose proof (m_cost_less p v tm tl rm rl NR Al UC MS MG BE NE Tm Tl Yl Hl El Rl Wl LRN d D SM) as CL.
      set (w := sim p _ _ _) in *.
      pose proof (proj1 (proj2 (C44_objective_direction_pf p v w F Fw) OB) (OPT w Fw)) as LE. cbv beta zeta in LE.
      set (A := cost_of p v tm rm (/ baseline_emissions p tm rm * d) - area_under_MAC v tm rm) in *.
      set (B := cost_of p v tl rl (- / baseline_emissions p tl rl * d) - area_under_MAC v tl rl) in *.
      assert (Z : forall x u, feasible p x -> model_step p u -> total p (fun q => damage_costs x u q * GDP_gross x u q) = 0).
      { intros x u Fx Mu. unfold total. rewrite (Rsum_ext _ (fun _ => 0)); [apply Rsum_const0|]. intros q Hq. unfold damage_costs. rewrite (q_nodamage p x Fx u q DM Mu Hq). ring. }
      assert (TV : forall u, (1 <= u <= tf p)%nat -> total p (mitigation_costs v u) = total p (area_under_MAC v u)).
      { intros u Hu. destruct (trade p) eqn:TR.
        - apply Rsum_ext. intros q Hq. apply (C35_notrade_own_costs_pf p v u q F TR); auto. unfold model_step; lia.
        - exfalso. apply (proj1 U). exact TR.
        - apply (C33_trade_zero_sum_pf p v u F TR). unfold model_step; lia. }
      pose proof (discounted_two p (fun u => total p (mitigation_costs w u) + total p (fun q => damage_costs w u q * GDP_gross w u q))
        (fun u => total p (mitigation_costs v u) + total p (fun q => damage_costs v u q * GDP_gross v u q)) tm tl A B (tf p) NR Tm Tl NE) as DD.
      assert (ST : forall u, (1 <= u <= tf p)%nat -> total p (mitigation_costs w u) <= total p (mitigation_costs v u) + same tm u * A + same tl u * B).
      { intros u Hu. rewrite (TV u Hu). unfold total. rewrite <- (at_pair_sum tm rm u (regions p) ND Hm), <- (at_pair_sum tl rl u (regions p) ND Hl).
        rewrite (Rmult_comm _ A), (Rmult_comm _ B), <- !Rsum_scal, <- !Rsum_plus. apply Rsum_le. intros q Hq.
        destruct (at_pair_cases tm rm u q) as [(E1 & E2 & ->)|[N1 ->]].
        - destruct (at_pair_cases tl rl u q) as [[E3 _]|[_ ->]]; [exfalso; apply NE; congruence|]. subst u q. unfold A. lra.
        - destruct (at_pair_cases tl rl u q) as [(E1 & E2 & ->)|[N2 ->]].
          + subst u q. unfold B. lra.
          + pose proof (CO u q Hu Hq N1 N2). lra. }
      specialize (DD ltac:(intros u Hu; assert (Mu : model_step p u) by (unfold model_step; lia); cbv beta; rewrite (Z w u Fw Mu), (Z v u F Mu); specialize (ST u Hu); lra)).
      assert (GE : 0 <= dt p * (present_value p tm A + present_value p tl B)) by lra.
      assert (GE' : 0 <= present_value p tm A + present_value p tl B) by (apply Rmult_le_reg_l with (1 := HD); lra).
      unfold present_value in GE'. fold km kl in GE'. unfold f, A, B in *.
      rewrite (cost_v p v F NR UC tm rm) in GE' by (auto; unfold model_step; lia). rewrite (cost_v p v F NR UC tl rl) in GE' by (auto; unfold model_step; lia).
      unfold cost_of at 1 2. rewrite !Rmult_0_r, !Rplus_0_r. unfold ac in GE'. lra. }
    pose proof (rising_start f _ Df N). unfold present_value. fold km kl. lra.
  Qed.
End Hotelling.

(** Where doing makes abatement cheaper or leaves its price unchanged, the discounted carbon price never rises: a region that could abate a little less
    later does not have a higher discounted price than a region that could abate a little more now. *)
Lemma C71_discounted_price_never_rises_pf : forall p v t u r s, least_cost_plan p v -> sensible_data p -> climate_positive p v ->
  0 < LBD_rate p <= 1 -> 0 < LBD_scaling p -> (t < u)%nat -> early_step p t r -> early_step p u s ->
  can_abate_more p v t r -> can_abate_less p v u s -> world_can_emit_less p v t -> world_can_emit_more p v u ->
  present_value p u (carbonprice v u s) <= present_value p t (carbonprice v t r).
Proof.
  intros p v t u r s (O & OB & DM & UC & ER & NT & ML) (NR & SD & U & Al & ND & MG & MS & BE) CP LR LS L (T1 & T2 & T3 & T4) (U1 & U2 & U3 & U4) M1 M2 W1 W2.
  apply price_path; auto. lia.
Qed.
(** Without learning by doing the order of the steps does not matter. *)
Lemma C71_discounted_price_order_pf : forall p v t u r s, least_cost_plan p v -> sensible_data p -> climate_positive p v ->
  LBD_rate p = 1 -> t <> u -> early_step p t r -> early_step p u s ->
  can_abate_more p v t r -> can_abate_less p v u s -> world_can_emit_less p v t -> world_can_emit_more p v u ->
  present_value p u (carbonprice v u s) <= present_value p t (carbonprice v t r).
Proof.
  intros p v t u r s (O & OB & DM & UC & ER & NT & ML) (NR & SD & U & Al & ND & MG & MS & BE) CP LR L (T1 & T2 & T3 & T4) (U1 & U2 & U3 & U4) M1 M2 W1 W2.
  apply price_path; auto.
Qed.
(** Hotelling's rule: where no limit of region or world is reached, the carbon price rises with the rate of time preference. *)
Lemma C71_hotelling_rule_pf : forall p v t u r s, least_cost_plan p v -> sensible_data p -> climate_positive p v ->
  LBD_rate p = 1 -> early_step p t r -> early_step p u s -> has_room p v t r -> has_room p v u s ->
  world_can_emit_less p v t -> world_can_emit_more p v t -> world_can_emit_less p v u -> world_can_emit_more p v u -> t <> u ->
  present_value p t (carbonprice v t r) = present_value p u (carbonprice v u s) /\
  carbonprice v u s = exp (PRTP p * (year p u - year p t)) * carbonprice v t r.
Proof.
  intros p v t u r s LC SD CP LR ET EU [R1 R2] [S1 S2] W1 W2 W3 W4 N.
  assert (E : present_value p t (carbonprice v t r) = present_value p u (carbonprice v u s)).
  { apply Rle_antisym; [apply (C71_discounted_price_order_pf p v u t s r)|apply (C71_discounted_price_order_pf p v t u r s)]; auto. }
  split; [exact E|]. unfold present_value in E.
  replace (PRTP p * (year p u - year p t)) with (- PRTP p * (year p t - beginyear p) + PRTP p * (year p u - beginyear p)) by ring.
  rewrite exp_plus, Rmult_assoc, (Rmult_comm (exp (PRTP p * (year p u - beginyear p)))), <- Rmult_assoc, E.
  replace (PRTP p * (year p u - beginyear p)) with (- (- PRTP p * (year p u - beginyear p))) by ring. rewrite exp_Ropp. field. apply Rgt_not_eq, exp_pos.
Qed.
