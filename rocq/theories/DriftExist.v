(** C69, C52: with moderate baseline growth the run without climate policy exists when emissions follow the model's own GDP. *)
From Coq Require Import Reals Lra Lia List.
From Verif Require Import ModelFacts SoftFacts ModelSpec Equations Equations2 PowFacts EconLemmas DriftSpec DriftLemmas
  Build VarFacts BuildFacts BuildLemmas Simulate SimFacts ExistSpec ExistFacts ExistLemmas ExistExo DefinedFacts.
Import ListNotations.
Set Bullet Behavior "Strict Subproofs".
Open Scope R_scope.

Section Envelope.
  Variables (p : pars) (mu eps c : R).
  Hypothesis Hdt : 0 < dt p.
  Hypothesis Hk : 0 <= dk p < 1.
  Hypothesis Hs : 0 <= sr p.
  Hypothesis Ha : 0 <= alpha p <= 1.
  Hypothesis PD : positive_data p.
  Hypothesis NE : regions p <> [].
  Hypothesis BE : forall t r, model_step p t -> In r (regions p) -> 0 <= baseline_emissions p t r.
  Hypothesis Hmu : 1 <= mu.
  Hypothesis GW : grows_within p mu eps c.
  Let H := (1 + eps) * Rpower c (alpha p).

  Lemma gw_consts : 0 <= eps /\ 1 <= c /\ 1 <= H.
  Proof.
    destruct (regions p) as [|r l] eqn:E; [contradiction|]. destruct (GW r) as (gmin & gmax & kap & _ & _ & [He _] & [C1 _]); [rewrite E; left; auto|].
    split; auto. split; auto. unfold H. assert (P1 : 1 <= Rpower c (alpha p)) by (rewrite <- (Rpower_O c) by lra; apply Rle_Rpower; lra). nra.
  Qed.
  Lemma top_output t r : (0 < t <= tf p)%nat -> In r (regions p) ->
    output_scale p t r * Rpower (smin 10 (c * calibration_capital p t r)) (alpha p) <= H * baseline_GDP p t r.
  Proof.
    intros Ht Hr. assert (M : model_step p t) by (unfold model_step; lia).
    destruct gw_consts as (He & C1 & _). destruct (GW r Hr) as (gmin & gmax & kap & GB & KR & [_ SM] & CC).
    pose proof (C32_calibration_pf p t r Hdt Hk Hs PD Hr M) as C. rewrite calibration_is in C by auto. pose proof (Kc_pos p r Hr Hdt Hk Hs PD t M) as KP.
    unfold output_scale. set (K := calibration_capital p t r) in *. set (A := TFP p t r * Rpower (population p t r) (1 - alpha p)) in *.
    assert (AP : 0 < A) by (destruct (PD r Hr) as [_ D]; destruct (D t M) as [P _]; apply Rmult_lt_0_compat; [apply TFP_pos; auto|apply exp_pos]).
    rewrite <- C. unfold H. replace ((1 + eps) * Rpower c (alpha p) * (A * Rpower K (alpha p))) with (A * ((1 + eps) * Rpower c (alpha p) * Rpower K (alpha p))) by ring.
    apply Rmult_le_compat_l; [lra|].
    apply Rle_trans with (Rpower ((1 + eps) * (c * K)) (alpha p)).
    - apply Rpower_le_base; [lra|apply smin_pos; lra|]. apply smin_ratio with K; auto; [lra|nra|apply SM; auto].
    - assert (0 < c * K) by (apply Rmult_lt_0_compat; lra). rewrite <- !Rpower_mult_distr by lra.
      rewrite Rmult_assoc. apply Rmult_le_compat_r; [|apply power_above; lra]. apply Rlt_le, Rmult_lt_0_compat; apply exp_pos.
  Qed.
  Lemma envelope_exists : envelope p mu (fun t r => c * calibration_capital p t r) (fun t => mu * H * baseline_cumulative p t).
  Proof.
    destruct gw_consts as (He & C1 & H1). assert (MH : 1 <= mu * H) by nra.
    unfold envelope. split; [|split].
    - intros r Hr. cbn [calibration_capital]. pose proof (Kc_pos p r Hr Hdt Hk Hs PD 0%nat ltac:(unfold model_step; lia)) as K. cbn [calibration_capital] in K. nra.
    - cbn. lra.
    - intros t Ht. split.
      + intros r Hr. destruct (GW r Hr) as (gmin & gmax & kap & GB & KR & SM & CC).
        assert (Hkap : 0 <= kap) by (destruct KR as [K0 _]; destruct (PD r Hr); lra).
        pose proof (top_output (S t) r ltac:(lia) Hr) as T.
        destruct (ceiling_step p r Hr Hdt Hk Hs Ha PD gmin gmax kap eps mu c Hkap ltac:(lra) GB KR CC t c Ht ltac:(lra)) as [Q|Q]; [|lra].
        assert (DS : 0 <= dt p * sr p) by (apply Rmult_le_pos; lra).
        assert (Z : dt p * sr p * (mu * (output_scale p (S t) r * Rpower (smin 10 (c * calibration_capital p (S t) r)) (alpha p)))
                    <= dt p * sr p * (mu * (H * baseline_GDP p (S t) r))).
        { apply Rmult_le_compat_l; auto. apply Rmult_le_compat_l; [lra|exact T]. }
        unfold H in Z at 1. nra.
      + cbn [baseline_cumulative].
        assert (EB : forall s, (0 < s <= tf p)%nat ->
          total p (fun r => baseline_carbon_intensity p s r * (mu * (output_scale p s r * Rpower (smin 10 (c * calibration_capital p s r)) (alpha p))))
          <= mu * H * total p (baseline_emissions p s)).
        { intros s Hs'. unfold total. rewrite <- Rsum_scal. apply Rsum_le. intros r Hr. pose proof (top_output s r Hs' Hr) as T.
          assert (M : model_step p s) by (unfold model_step; lia). destruct (PD r Hr) as [_ D]. destruct (D s M) as [_ G]. specialize (BE s r M Hr).
          unfold baseline_carbon_intensity. replace (mu * H * baseline_emissions p s r) with (baseline_emissions p s r / baseline_GDP p s r * (mu * (H * baseline_GDP p s r))) by (field; lra).
          apply Rmult_le_compat_l; [apply Rmult_le_pos; [auto|apply Rlt_le, Rinv_0_lt_compat; auto]|]. apply Rmult_le_compat_l; [lra|exact T]. }
        assert (E0 : total p (baseline_emissions p 0) <= mu * H * total p (baseline_emissions p 0)).
        { assert (0 <= total p (baseline_emissions p 0)) by (apply Rsum_nonneg; intros r Hr; apply BE; auto; unfold model_step; lia). nra. }
        pose proof (EB (S t) ltac:(lia)) as E1.
        assert (E2 : match t with O => total p (baseline_emissions p 0) | S _ => total p (fun r => baseline_carbon_intensity p t r * (mu * (output_scale p t r * Rpower (smin 10 (c * calibration_capital p t r)) (alpha p)))) end
                     <= mu * H * total p (baseline_emissions p t)).
        { destruct t as [|t]; [exact E0|apply EB; lia]. }
        assert (X : forall a b a' b', a <= a' -> b <= b' -> dt p * (if cum_trapz p then (a + b) / 2 else a) <= dt p * (if cum_trapz p then (a' + b') / 2 else a')).
        { intros. apply Rmult_le_compat_l; [lra|]. destruct (cum_trapz p); lra. }
        specialize (X _ _ _ _ E1 E2).
        apply Rle_trans with (mu * H * baseline_cumulative p t + dt p * (if cum_trapz p
             then (mu * H * total p (baseline_emissions p (S t)) + mu * H * total p (baseline_emissions p t)) / 2 else mu * H * total p (baseline_emissions p (S t)))).
        * apply Rplus_le_compat_l. exact X.
        * right. destruct (cum_trapz p); field.
  Qed.
End Envelope.

Lemma C69_no_policy_run_exists_pf : forall p mu eps c Tmax,
  numeric_ranges p -> sound_data p -> usable_choices p -> slr_logistic_ok p -> 0 <= alpha p < 1 ->
  use_carbon_intensity p = true -> no_limits p ->
  (forall t r, model_step p t -> In r (regions p) -> 0 <= baseline_emissions p t r) ->
  (forall r, In r (regions p) -> 0 <= MAC_scaling p r) -> 0 <= MAC_gamma p -> 0 <= T0 p -> 0 <= TCRE p ->
  1 <= mu -> grows_within p mu eps c ->
  (forall t, model_step p t -> T0 p + TCRE p * (mu * ((1 + eps) * Rpower c (alpha p)) * baseline_cumulative p t) <= Tmax) ->
  dt p * (Tmax + 1) < 325 ->
  (dmg_module p = COACCH -> forall r x y, In r (regions p) ->
     T0 p <= x <= Tmax -> 0 <= y <= sea_level_ceiling p Tmax ->
     (ignore_damages p = false -> 1 - mu <= damages_at p r x y <= 1) /\ -5/10 <= damages_at p r (T0 p) y <= 7/10 /\
     (transfer p = globaldamagepool -> 0 <= damages_at p r x y)) ->
  exists v, feasible p v /\
    (forall t r, model_step p t -> In r (regions p) -> relative_abatement v t r = 0 /\ mitigation_costs v t r = 0 /\
       ((1 <= t)%nat -> regional_emissions v t r = baseline v t r)) /\
    forall t, model_step p t -> T0 p <= temperature v t <= Tmax.
Proof.
  intros p mu eps c Tmax NR SD U SL Al UC NL BE MS MG HT HC Hmu GW TM DT DMG.
  assert (PD : positive_data p) by apply SD. assert (NE : regions p <> []) by apply SD.
  assert (Hdt : 0 < dt p) by apply NR. assert (Hk : 0 <= dk p < 1) by apply NR. assert (Hs : 0 <= sr p) by apply NR.
  pose proof (envelope_exists p mu eps c Hdt Hk Hs ltac:(lra) PD NE BE Hmu GW) as ENV.
  exact (C52_no_policy_run_exists_pf p mu Tmax _ _ NR SD U SL Al UC NL BE MS MG HT HC Hmu ENV TM DT DMG).
Qed.

(** A run without costs, damages and transfers: GDP stays within the factors of the two theorems above, and so do the emissions that follow GDP. *)
Lemma C69_run_without_policy_pf : forall p v r gmin gmax kap eps b c,
  feasible p v -> In r (regions p) -> 0 < dt p -> 0 <= dk p < 1 -> 0 <= sr p -> 0 <= alpha p <= 1 -> positive_data p -> 0 <= gmin ->
  growth_between p r gmin gmax -> capital_ratio_at_most p r gmin kap -> smoothing_at_most p r eps ->
  capital_ceiling p gmax kap eps 1 c -> capital_floor p gmin 1 b ->
  transfer p = notransfer -> (forall t, (0 < t <= tf p)%nat -> mitigation_costs v t r = 0 /\ (ignore_damages p = true \/ damage_costs v t r = 0)) ->
  let lo := Rpower b (alpha p) in let hi := (1 + eps) * Rpower c (alpha p) in
  forall t, (0 < t <= tf p)%nat ->
    lo * baseline_GDP p t r <= GDP_net v t r <= hi * baseline_GDP p t r /\ GDP_gross v t r = GDP_net v t r /\
    (use_carbon_intensity p = true -> 0 <= baseline_emissions p t r ->
       lo * baseline_emissions p t r <= baseline v t r <= hi * baseline_emissions p t r).
Proof.
  intros p v r gmin gmax kap eps b c F Hr Hdt Hk Hs Ha PD Hg GB KR SM CC CF NT Z lo hi t Ht.
  assert (E : forall s, (0 < s <= tf p)%nat -> GDP_net v s r = GDP_gross v s r).
  { intros s Hs'. destruct (C30_accounting_pf p v s r F ltac:(unfold model_step; lia) Hr) as [-> _]. destruct (Z s Hs') as [-> D].
    unfold transfer_paid. rewrite NT. destruct D as [->|D]; [lra|]. rewrite D. destruct (ignore_damages p); lra. }
  assert (M : model_step p t) by (unfold model_step; lia).
  pose proof (C69_GDP_ceiling_pf p v r gmin gmax kap eps 1 c F Hr Hdt Hk Hs Ha PD ltac:(lra) GB KR SM CC ltac:(intros s Hs'; rewrite (E s Hs'); lra) t M) as U.
  pose proof (C69_GDP_floor_pf p v r gmin gmax 1 b F Hr Hdt Hk Hs Ha PD ltac:(lra) Hg GB CF ltac:(intros s Hs'; rewrite (E s Hs'); lra) t M) as L.
  fold lo in L. fold hi in U. rewrite (E t Ht). split; [lra|]. split; [reflexivity|].
  intros CI BE. unfold baseline. rewrite (q_baseline p v F t r M Hr), CI. change (rval v v_GDP_net t r) with (GDP_net v t r). rewrite (E t Ht).
  destruct (PD r Hr) as [_ D]. destruct (D t M) as [_ G]. unfold baseline_carbon_intensity.
  assert (I : 0 <= baseline_emissions p t r / baseline_GDP p t r) by (apply Rmult_le_pos; [auto|apply Rlt_le, Rinv_0_lt_compat; auto]).
  split.
  - replace (lo * baseline_emissions p t r) with (baseline_emissions p t r / baseline_GDP p t r * (lo * baseline_GDP p t r)) by (field; lra). apply Rmult_le_compat_l; auto.
  - replace (hi * baseline_emissions p t r) with (baseline_emissions p t r / baseline_GDP p t r * (hi * baseline_GDP p t r)) by (field; lra). apply Rmult_le_compat_l; auto.
Qed.
