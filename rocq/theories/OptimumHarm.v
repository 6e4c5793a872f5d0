(** C67, regions that gain without limit from warming (China in the shipped damage functions): an optimal plan still exists when some region
    is harmed without limit and welfare counts the consumption of every region. *)
From Coq Require Import Lra Lia.
From Coquelicot Require Import Coquelicot.
From Verif Require Import ModelFacts SoftFacts ModelSpec PowFacts Equations Equations2 ClimateSpec ClimateLemmas WelfareSpec Build VarFacts EconLemmas BuildFacts BuildLemmas DefinedFacts SolveFacts Subsequence Compact Bounds Optimum OptimumLemmas.
Open Scope R_scope.
Set Bullet Behavior "Strict Subproofs".

(** Some region is harmed more than any given level when warming is large enough. *)
Definition harm_grows (p : pars) : Prop :=
  dmg_module p = COACCH -> exists r, In r (regions p) /\ forall M, exists X, forall x, X <= x ->
    M <= damage_scale_factor p * damage_curve (dmg_noslr p) r (x - 6/10).

Section Harm.
  Variable p : pars.
  Variable v0 : point.
  Hypothesis NR : numeric_ranges p.
  Hypothesis SD : sound_data p.
  Hypothesis U : usable_choices p.
  Hypothesis AL : 0 <= alpha p < 1.
  Hypothesis TC : 0 <= TCRE p.
  Hypothesis OB : objective p = utility.
  Hypothesis NW : welfare p <> cost_minimising.
  Hypothesis PM : poverty_matters p.
  Hypothesis NT : transfer p = notransfer.
  Notation A := (fun v => feasible p v /\ better p v v0).
  Notation regs := (regions p).
  Let FA : forall v, A v -> feasible p v := fun v H => proj1 H.

  Lemma h_net t r : (0 < t <= tf p)%nat -> In r regs -> lo A (fun v => rval v v_GDP_net t r).
  Proof. intros T R. apply (e_utility_own p v0 NR SD OB PM t r NW T R). Qed.
  (** Income that does not fall without limit keeps capital from falling without limit... *)
  Lemma h_capital t r : (t <= tf p)%nat -> In r regs -> lo A (fun v => rval v v_capital_stock t r).
  Proof.
    pose proof NR as (Hdt & Hdk & Hs & _). intros T R. induction t as [|t IH].
    - exists (init_capital_factor p r * baseline_GDP p 0 r). intros v V. rewrite (q_capital0 p v (FA v V) r R). lra.
    - destruct (IH ltac:(lia)) as [k HK]. destruct (h_net (S t) r ltac:(lia) R) as [m HM]. destruct (surv_range p Hdt Hdk) as [_ [S0 S1]].
      exists ((k + dt p * (sr p * m)) * / (2 - survival p)). intros v V. specialize (HK v V). specialize (HM v V). cbn beta in HK, HM.
      pose proof (capital_closed p v t r (FA v V) T R Hdt Hdk) as E. unfold capital_stock, investments in E.
      rewrite (q_investments p v (FA v V) (S t) r T R) in E.
      apply Rmult_le_reg_r with (2 - survival p); [lra|]. rewrite E. rewrite Rmult_assoc, Rinv_l, Rmult_1_r by lra.
      assert (sr p * m <= sr p * rval v v_GDP_net (S t) r) by (apply Rmult_le_compat_l; lra).
      assert (dt p * (sr p * m) <= dt p * (sr p * rval v v_GDP_net (S t) r)) by (apply Rmult_le_compat_l; lra). lra.
  Qed.
  (** ... and gross output from vanishing. *)
  Lemma h_gross t r : (0 < t <= tf p)%nat -> In r regs -> exists g, 0 < g /\ forall v, A v -> g <= rval v v_GDP_gross t r.
  Proof.
    intros T R. pose proof SD as (_ & PD & _). destruct (h_capital t r ltac:(lia) R) as [k HK].
    set (B := TFP p t r * pypow (population p t r) (1 - alpha p)).
    assert (B0 : 0 < B).
    { apply Rmult_lt_0_compat; [apply (TFP_pos p t r (proj1 NR) (proj1 (proj2 NR)) (proj1 (proj2 (proj2 NR))) PD R (proj2 T))|]. apply pypow_pos_pos. apply (proj2 (PD r R) t (proj2 T)). }
    assert (P10 : 0 < 10) by lra.
    exists (B * Rpower (smin 10 k) (alpha p)). split; [apply Rmult_lt_0_compat; [exact B0|apply exp_pos]|]. intros v V.
    rewrite (q_GDP_gross p v (FA v V) t r T R). rewrite (pypow_pos (smin 10 _)) by (apply smin_pos; exact P10). fold B.
    apply Rmult_le_compat_l; [lra|]. apply Rpower_le_base; [lra|apply smin_pos; exact P10|]. specialize (HK v V). cbn beta in HK.
    destruct HK as [HK|HK]; [apply Rlt_le, smin_incr; auto|right; rewrite HK; reflexivity].
  Qed.
  (** Damages above some level would ruin a region. *)
  Lemma h_damage t r : ignore_damages p = false -> (t <= tf p)%nat -> In r regs -> up A (fun v => rval v v_damage_costs t r).
  Proof.
    intros IG T R. destruct t as [|t].
    - exists 0. intros v V. assert (DM : dmg_module p = COACCH \/ dmg_module p = nodamage) by (destruct (dmg_module p); auto). destruct DM as [D|D].
      + right. exact (proj2 (proj2 (proj2 (proj2 (proj2 (C39_damages_follow_curve_pf p v 0 r (FA v V) D T R))) eq_refl))).
      + right. apply (q_nodamage p v (FA v V) 0 r D T R).
    - assert (T' : (0 < S t <= tf p)%nat) by lia. destruct (h_gross (S t) r T' R) as (g & G0 & HG). destruct (h_net (S t) r T' R) as [m HM].
      exists (1 - rel_mitigation_costs_min_level p + Rabs m * / g). intros v V. specialize (HG v V). specialize (HM v V). cbn beta in HM.
      pose proof (mit_ge p A NR SD FA v (S t) r V T R) as MI. cbn [Nat.ltb Nat.leb] in MI.
      rewrite (q_GDP_net p v (FA v V) (S t) r T R), IG in HM. unfold financial_transfer in HM. rewrite NT in HM. cbn [deno] in HM.
      set (y := rval v v_GDP_gross (S t) r) in *. set (d := rval v v_damage_costs (S t) r) in *. set (c := rel_mitigation_costs_min_level p) in *.
      assert (X : (d - (1 - c)) * y <= Rabs m) by (pose proof (Rle_abs (- m)) as Q; rewrite Rabs_Ropp in Q; lra).
      assert (Y : d - (1 - c) <= Rabs m * / g).
      { destruct (Rle_dec (d - (1 - c)) 0) as [L|L].
        - apply Rle_trans with 0; [exact L|]. apply Rmult_le_pos; [apply Rabs_pos|apply Rlt_le, Rinv_0_lt_compat, G0].
        - apply Rmult_le_reg_r with g; [exact G0|]. rewrite Rmult_assoc, Rinv_l, Rmult_1_r by lra.
          apply Rle_trans with ((d - (1 - c)) * y); [|exact X]. apply Rmult_le_compat_l; lra. }
      lra.
  Qed.
  (** So warming is limited, and with it the gains of the other regions. *)
  Lemma h_temperature t : ignore_damages p = false -> dmg_module p = COACCH -> harm_grows p -> (t <= tf p)%nat -> up A (fun v => gval v g_temperature t).
  Proof.
    intros IG D HG T. destruct (HG D) as (r & R & H). destruct (h_damage t r IG T R) as [M HM].
    destruct (H (M + 5/10 + damage_scale_factor p * damage_curve (dmg_noslr p) r (T0 p - 6/10) + 1)) as [X HX].
    exists X. intros v V. specialize (HM v V). cbn beta in HM. destruct (Rle_dec (gval v g_temperature t) X) as [L|L]; [exact L|exfalso].
    specialize (HX (gval v g_temperature t) ltac:(lra)).
    rewrite (q_dm_total p v (FA v V) D t r T R) in HM. destruct (q_dm_noslr p v (FA v V) D t r T R) as (e1 & e2 & E1 & E2 & E).
    rewrite E in HM. rewrite (form_curve v _ _ _ _ E1), (form_curve v _ _ _ _ E2) in HM. cbn [deno] in HM.
    destruct (q_bounds_r p v (FA v V) t r T R) as (_ & _ & Q & _). specialize (Q D). lra.
  Qed.
  Lemma h_gain t r : ignore_damages p = false -> harm_grows p -> (t <= tf p)%nat -> In r regs -> lo A (fun v => rval v v_damage_costs t r).
  Proof.
    intros IG HG T R. assert (DM : dmg_module p = COACCH \/ dmg_module p = nodamage) by (destruct (dmg_module p); auto). destruct DM as [D|D].
    - destruct (h_temperature t IG D HG T) as [X HX].
      assert (UC : known_form (d_form (dmg_noslr p) r)) by (destruct U as (_ & _ & _ & _ & _ & _ & _ & KF); apply (KF D r R)).
      assert (LG : str_contains "Logistic" (d_form (dmg_noslr p) r) = true -> 0 <= d_b2 (dmg_noslr p) r) by (destruct SD as (_ & _ & _ & _ & L1 & _); apply (L1 D r R)).
      destruct (curve_bounded (dmg_noslr p) r (Rabs (T0 p) + Rabs X + 1) LG UC) as [M HM].
      exists (- (Rabs (damage_scale_factor p) * M) - damage_scale_factor p * damage_curve (dmg_noslr p) r (T0 p - 6/10) - 5/10). intros v V.
      specialize (HX v V). cbn beta in HX. pose proof (e_T p v0 TC v t V T) as HT.
      assert (BD : Rabs (damage_curve (dmg_noslr p) r (gval v g_temperature t - 6/10)) <= M).
      { apply HM. apply Rcomplements.Rabs_le_between. pose proof (Rle_abs (- T0 p)) as Q1. rewrite Rabs_Ropp in Q1. pose proof (Rle_abs X) as Q2. pose proof (Rabs_pos (T0 p)). pose proof (Rabs_pos X). lra. }
      rewrite (q_dm_total p v (FA v V) D t r T R). destruct (q_dm_noslr p v (FA v V) D t r T R) as (e1 & e2 & E1 & E2 & ->).
      rewrite (form_curve v _ _ _ _ E1), (form_curve v _ _ _ _ E2). cbn [deno].
      destruct (q_bounds_r p v (FA v V) t r T R) as (_ & _ & Q & _). specialize (Q D).
      set (y := damage_curve (dmg_noslr p) r (gval v g_temperature t - 6/10)) in *.
      assert (Z : Rabs (damage_scale_factor p * y) <= Rabs (damage_scale_factor p) * M) by (rewrite Rabs_mult; apply Rmult_le_compat_l; [apply Rabs_pos|exact BD]).
      apply Rcomplements.Rabs_le_between in Z. lra.
    - exists 0. intros v V. rewrite (q_nodamage p v (FA v V) t r D T R). lra.
  Qed.
End Harm.

(** Emissions that follow income, and regions that gain from warming: with a welfare function that counts the consumption of every region and
    without transfers an optimal plan exists as soon as one region is harmed more and more by warming (or damages are ignored). *)
Lemma C67_optimum_exists_harm_pf : forall p, numeric_ranges p -> sound_data p -> usable_choices p -> slr_logistic_ok p -> 0 <= alpha p < 1 ->
  0 <= TCRE p -> objective p = utility -> welfare p <> cost_minimising -> poverty_matters p -> transfer p = notransfer ->
  (ignore_damages p = false -> harm_grows p) -> (exists v, feasible p v) -> exists v, optimal p v.
Proof.
  intros p NR SD U SL AL TC OB NW PM NT HG [v0 F0]. apply (attained p v0 NR SD U SL F0).
  assert (SH : forall t r, (t <= tf p)%nat -> In r (regions p) -> exists C, 0 <= C /\ forall v, (feasible p v /\ better p v v0) -> rval v v_GDP_net t r <= C * rval v v_GDP_gross t r).
  { apply (net_share p (fun v => feasible p v /\ better p v v0) NR SD (fun v H => proj1 H)).
    - intros _ IG t r T R. apply (h_gain p v0 NR SD U AL TC OB NW PM NT t r IG (HG IG) T R).
    - intros E. congruence. }
  intros t r T R. destruct t as [|t]; [apply (e_first p v0 NR SD U AL SH r R)|].
  apply up_lo_bd; [apply (e_up p v0 NR SD AL SH (S t) r T R)|apply (h_net p v0 NR SD OB NW PM (S t) r ltac:(lia) R)].
Qed.
