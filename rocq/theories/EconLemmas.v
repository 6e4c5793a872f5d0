(** C30-C32 *)
From Coq Require Import Lra Lia.
From Verif Require Import ModelFacts SoftFacts ModelSpec Equations PowFacts.

Lemma transfer_deno p v t r : deno v (financial_transfer p t r) = transfer_paid p v t r.
Proof. unfold financial_transfer, transfer_paid. destruct (transfer p); reflexivity. Qed.
Lemma cost_balance_deno p v t r : deno v (cost_balance p t r) = imported_costs p v t r.
Proof. unfold cost_balance, imported_costs. destruct (trade p); reflexivity. Qed.

Lemma C30_accounting_pf : forall p v t r, feasible p v -> model_step p t -> In r (regions p) ->
  GDP_net v t r = GDP_gross v t r - (if ignore_damages p then 0 else damage_costs v t r * GDP_gross v t r)
                  - mitigation_costs v t r - transfer_paid p v t r /\
  mitigation_costs v t r = area_under_MAC v t r + imported_costs p v t r /\
  investments v t r = sr p * GDP_net v t r /\
  consumption v t r + investments v t r = GDP_net v t r.
Proof.
  intros p v t r F Ht Hr. unfold GDP_net, GDP_gross, damage_costs, mitigation_costs, area_under_MAC, investments, consumption.
  pose proof (q_GDP_net p v F t r Ht Hr) as E. rewrite transfer_deno in E.
  pose proof (q_mitigation p v F t r Ht Hr) as M. rewrite cost_balance_deno in M.
  pose proof (q_investments p v F t r Ht Hr) as I. pose proof (q_consumption p v F t r Ht Hr) as C.
  split; [rewrite E; destruct (ignore_damages p); lra|]. split; [exact M|]. split; [exact I|]. lra.
Qed.
Lemma C30_global_accounting_pf : forall p v t, feasible p v -> model_step p t ->
  total p (consumption v t) + total p (investments v t) = total p (GDP_net v t) /\
  total p (investments v t) = sr p * total p (GDP_net v t).
Proof.
  intros p v t F Ht. unfold total. rewrite <- Rsum_plus, <- Rsum_scal.
  split; apply Rsum_ext; intros r Hr; apply (C30_accounting_pf p v t r F Ht Hr).
Qed.

(** Depreciation leaves between 0 and all of the capital. *)
Lemma surv_range p : 0 < dt p -> 0 <= dk p < 1 ->
  pypow (1 - dk p) (dt p) = survival p /\ 0 < survival p <= 1.
Proof.
  intros Hdt Hk. rewrite pypow_pos by lra. split; [reflexivity|]. unfold survival. split; [apply exp_pos|].
  assert (L : ln (1 - dk p) <= 0).
  { destruct (Req_dec (dk p) 0) as [->|]; [rewrite Rminus_0_r, ln_1; lra|].
    left. rewrite <- ln_1. apply ln_increasing; lra. }
  destruct (Rle_lt_or_eq_dec (dt p * ln (1 - dk p)) 0) as [H1|H1]; [nra| |rewrite H1, exp_0; lra].
  left. pose proof (exp_increasing _ _ H1) as X. rewrite exp_0 in X. exact X.
Qed.

(** Closed form of the capital equation. *)
Lemma capital_closed p v t r : feasible p v -> (S t <= tf p)%nat -> In r (regions p) -> 0 < dt p ->
  0 <= dk p < 1 ->
  capital_stock v (S t) r * (2 - survival p) = capital_stock v t r + dt p * investments v (S t) r.
Proof.
  intros F Ht Hr Hdt Hk. unfold capital_stock, investments.
  destruct (q_capital p v F t r Ht Hr) as [E _]. destruct (surv_range p Hdt Hk) as [S _]. rewrite S in E.
  assert (dt p * ((survival p - 1) / dt p * rval v v_capital_stock (Datatypes.S t) r + rval v v_investments (Datatypes.S t) r)
          = (survival p - 1) * rval v v_capital_stock (Datatypes.S t) r + dt p * rval v v_investments (Datatypes.S t) r)
    by (field; lra).
  lra.
Qed.

Lemma C31_capital_positive_pf : forall p v t r, feasible p v -> model_step p t -> In r (regions p) ->
  0 < dt p -> 0 <= dk p < 1 -> 0 < init_capital_factor p r -> 0 < baseline_GDP p 0 r ->
  (forall s, (0 < s <= t)%nat -> 0 <= investments v s r) -> 0 < capital_stock v t r.
Proof.
  intros p v t r F Ht Hr Hdt Hk Hi Hg HI. unfold model_step in Ht. induction t as [|t IH].
  - unfold capital_stock. rewrite (q_capital0 p v F) by auto. apply Rmult_lt_0_compat; auto.
  - specialize (IH ltac:(lia) ltac:(intros s Hs; apply HI; lia)).
    pose proof (capital_closed p v t r F Ht Hr Hdt Hk) as E.
    specialize (HI (S t) ltac:(lia)). destruct (surv_range p Hdt Hk) as [_ [S0 S1]].
    assert (0 < capital_stock v (S t) r * (2 - survival p)) by nra.
    apply Rmult_lt_reg_r with (2 - survival p); lra.
Qed.

(** Positive input data. *)
Definition positive_data (p : pars) : Prop :=
  forall r, In r (regions p) -> 0 < init_capital_factor p r /\
    forall t, model_step p t -> 0 < population p t r /\ 0 < baseline_GDP p t r.

Lemma TFP_capital_pos p t r : 0 < dt p -> 0 <= dk p < 1 -> 0 <= sr p -> positive_data p ->
  In r (regions p) -> model_step p t -> 0 < TFP_capital p t r.
Proof.
  intros Hdt Hk Hs D Hr Ht. destruct (D r Hr) as [Di Dt]. unfold model_step in *. induction t as [|t IH].
  - cbn. apply Rmult_lt_0_compat; auto. apply Dt; auto.
  - specialize (IH ltac:(lia)). cbn [TFP_capital]. unfold calc_dKdt_num.
    destruct (surv_range p Hdt Hk) as [-> [S0 S1]].
    destruct (Dt t ltac:(lia)) as [_ G].
    replace (((survival p - 1) / dt p * TFP_capital p t r + sr p * baseline_GDP p t r) * dt p + TFP_capital p t r)
      with (survival p * TFP_capital p t r + sr p * baseline_GDP p t r * dt p) by (field; lra).
    assert (0 < survival p * TFP_capital p t r) by (apply Rmult_lt_0_compat; auto).
    assert (0 <= sr p * baseline_GDP p t r * dt p) by (apply Rmult_le_pos; [apply Rmult_le_pos|]; lra).
    lra.
Qed.
Lemma TFP_pos p t r : 0 < dt p -> 0 <= dk p < 1 -> 0 <= sr p -> positive_data p ->
  In r (regions p) -> model_step p t -> 0 < TFP p t r.
Proof.
  intros Hdt Hk Hs D Hr Ht. unfold TFP, calc_GDP_num.
  pose proof (TFP_capital_pos p t r Hdt Hk Hs D Hr Ht). destruct (D r Hr) as [_ Dt]. destruct (Dt t Ht) as [P G].
  apply Rdiv_lt_0_compat; auto. rewrite Rmult_1_l. apply Rmult_lt_0_compat; apply pypow_pos_pos; auto.
Qed.

Lemma C31_GDP_positive_pf : forall p v t r, feasible p v -> model_step p t -> In r (regions p) ->
  0 < dt p -> 0 <= dk p < 1 -> 0 <= sr p -> positive_data p -> 0 < GDP_gross v t r.
Proof.
  intros p v t r F Ht Hr Hdt Hk Hs D. unfold GDP_gross. destruct (D r Hr) as [_ Dt].
  destruct t as [|t].
  - rewrite (q_GDP_gross0 p v F) by auto. apply Dt. auto.
  - rewrite (q_GDP_gross p v F) by (auto; unfold model_step in Ht; lia).
    destruct (Dt _ Ht) as [P _].
    apply Rmult_lt_0_compat; [apply Rmult_lt_0_compat|].
    + apply TFP_pos; auto.
    + apply pypow_pos_pos; auto.
    + apply pypow_pos_pos. apply smin_pos. lra.
Qed.

Lemma C32_calibration_pf : forall p t r, 0 < dt p -> 0 <= dk p < 1 -> 0 <= sr p -> positive_data p ->
  In r (regions p) -> model_step p t ->
  TFP p t r * Rpower (population p t r) (1 - alpha p) * Rpower (TFP_capital p t r) (alpha p)
  = baseline_GDP p t r.
Proof.
  intros p t r Hdt Hk Hs D Hr Ht.
  pose proof (TFP_capital_pos p t r Hdt Hk Hs D Hr Ht) as K.
  destruct (D r Hr) as [_ Dt]. destruct (Dt t Ht) as [P G].
  unfold TFP, calc_GDP_num. rewrite !pypow_pos by auto.
  assert (0 < Rpower (population p t r) (1 - alpha p)) by apply exp_pos.
  assert (0 < Rpower (TFP_capital p t r) (alpha p)) by apply exp_pos.
  field. split; lra.
Qed.
(** The production function at the model's capital stock therefore returns baseline GDP exactly when the
    smoothed capital equals the calibration capital. *)
Lemma C32_reproduction_iff_capital_pf : forall p v t r, feasible p v -> (0 < t)%nat -> model_step p t ->
  In r (regions p) -> 0 < dt p -> 0 <= dk p < 1 -> 0 <= sr p -> positive_data p -> 0 < alpha p ->
  (GDP_gross v t r = baseline_GDP p t r <-> smin 10 (capital_stock v t r) = TFP_capital p t r).
Proof.
  intros p v t r F H0 Ht Hr Hdt Hk Hs D Ha.
  pose proof (C32_calibration_pf p t r Hdt Hk Hs D Hr Ht) as C.
  pose proof (TFP_capital_pos p t r Hdt Hk Hs D Hr Ht) as K.
  pose proof (TFP_pos p t r Hdt Hk Hs D Hr Ht) as T.
  destruct (D r Hr) as [_ Dt]. destruct (Dt t Ht) as [P G].
  unfold GDP_gross, capital_stock. rewrite (q_GDP_gross p v F) by auto. rewrite <- C.
  assert (S : 0 < smin 10 (rval v v_capital_stock t r)) by (apply smin_pos; lra).
  rewrite !pypow_pos by auto.
  assert (0 < TFP p t r * Rpower (population p t r) (1 - alpha p)) by (apply Rmult_lt_0_compat; auto; apply exp_pos).
  split.
  - intros E. apply Rmult_eq_reg_l in E; [|lra].
    destruct (Rtotal_order (smin 10 (rval v v_capital_stock t r)) (TFP_capital p t r)) as [L|[L|L]]; auto.
    + pose proof (Rpower_lt_base _ _ (alpha p) Ha S L). lra.
    + pose proof (Rpower_lt_base _ _ (alpha p) Ha K L). lra.
  - intros ->. reflexivity.
Qed.
(** "A run without policy and damages reproduces baseline GDP" fails: in a stationary economy (constant
    baseline GDP, initial capital at its steady state) gross GDP cannot equal baseline GDP in any year in
    which nothing is deducted from it. *)
Lemma C32_baseline_run_refuted_pf : forall p v r, feasible p v -> (1 <= tf p)%nat -> In r (regions p) ->
  0 < dt p -> 0 <= dk p < 1 -> 0 <= sr p -> positive_data p -> 0 < alpha p ->
  baseline_GDP p 1 r = baseline_GDP p 0 r ->
  init_capital_factor p r * (1 - survival p) = dt p * sr p ->
  GDP_net v 1 r = GDP_gross v 1 r -> GDP_gross v 1 r <> baseline_GDP p 1 r.
Proof.
  intros p v r F H1 Hr Hdt Hk Hs D Ha HG HK HN E.
  pose proof (proj1 (C32_reproduction_iff_capital_pf p v 1 r F ltac:(lia) H1 Hr Hdt Hk Hs D Ha) E) as S.
  destruct (surv_range p Hdt Hk) as [Sv [S0 S1]].
  pose proof (capital_closed p v 0 r F H1 Hr Hdt Hk) as C.
  unfold investments, capital_stock in *. rewrite (q_investments p v F), (q_capital0 p v F) in C by auto.
  unfold GDP_net, GDP_gross in *. rewrite HN, E, HG in C.
  assert (K : TFP_capital p 1 r = init_capital_factor p r * baseline_GDP p 0 r).
  { cbn [TFP_capital]. unfold calc_dKdt_num. rewrite Sv.
    replace (((survival p - 1) / dt p * (init_capital_factor p r * baseline_GDP p 0 r) + sr p * baseline_GDP p 0 r) * dt p
             + init_capital_factor p r * baseline_GDP p 0 r)
      with (init_capital_factor p r * baseline_GDP p 0 r
            + (dt p * sr p - init_capital_factor p r * (1 - survival p)) * baseline_GDP p 0 r) by (field; lra).
    rewrite HK. lra. }
  assert (L : rval v v_capital_stock 1 r = init_capital_factor p r * baseline_GDP p 0 r).
  { apply Rmult_eq_reg_r with (2 - survival p); [|lra]. rewrite C.
    replace (dt p * (sr p * baseline_GDP p 0 r)) with (dt p * sr p * baseline_GDP p 0 r) by ring.
    rewrite <- HK. ring. }
  rewrite K, <- L in S. pose proof (smin_gt 10 ltac:(lra) (rval v v_capital_stock 1 r)). lra.
Qed.
