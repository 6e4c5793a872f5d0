(** C69: GDP stays within explicit factors of the exogenous baseline GDP. *)
From Coq Require Import Reals Lra Lia List.
From Verif Require Import ModelFacts SoftFacts ModelSpec Equations Equations2 PowFacts EconLemmas DriftSpec.
Import ListNotations.
Set Bullet Behavior "Strict Subproofs".
Open Scope R_scope.

Lemma calibration_is p t r : 0 < dt p -> 0 <= dk p < 1 -> TFP_capital p t r = calibration_capital p t r.
Proof.
  intros Hdt Hk. induction t as [|t IH]; [reflexivity|]. cbn [TFP_capital calibration_capital]. unfold calc_dKdt_num.
  destruct (surv_range p Hdt Hk) as [-> _]. rewrite IH. field. lra.
Qed.

Lemma power_above z al : 1 <= z -> 0 <= al <= 1 -> Rpower z al <= z.
Proof.
  intros Hz Ha. destruct (Req_dec z 1) as [->|]; [unfold Rpower; rewrite ln_1, Rmult_0_r, exp_0; lra|].
  rewrite <- (Rpower_1 z) at 2 by lra. apply Rle_Rpower; lra.
Qed.
Lemma power_below z al : 0 < z <= 1 -> 0 <= al <= 1 -> z <= Rpower z al.
Proof.
  intros Hz Ha. rewrite <- (exp_ln z) at 1 by lra. unfold Rpower.
  assert (ln z <= 0) by (destruct (Req_dec z 1) as [->|]; [rewrite ln_1; lra|rewrite <- ln_1; apply Rlt_le, ln_increasing; lra]).
  destruct (Req_dec (ln z) (al * ln z)) as [<-|]; [lra|]. apply Rlt_le, exp_increasing. nra.
Qed.
(** Concavity: from [c] on, and below [b], the power stays on the right side of the ray. *)
Lemma power_ray_above y c al : 0 < c -> c <= y -> 0 <= al <= 1 -> Rpower y al <= y / c * Rpower c al.
Proof.
  intros Hc Hy Ha. assert (E : y = y / c * c) by (field; lra). rewrite E at 1.
  assert (1 <= y / c) by (apply Rmult_le_reg_r with c; [auto|]; unfold Rdiv; rewrite Rmult_assoc, Rinv_l; lra).
  rewrite <- Rpower_mult_distr by lra. apply Rmult_le_compat_r; [apply Rlt_le, exp_pos|apply power_above; auto].
Qed.
Lemma power_ray_below y b al : 0 < y -> y <= b -> 0 <= al <= 1 -> y / b * Rpower b al <= Rpower y al.
Proof.
  intros Hy Hb Ha. assert (E : y = y / b * b) by (field; lra). rewrite E at 2.
  assert (P : 0 < y / b) by (apply Rdiv_lt_0_compat; lra).
  assert (y / b <= 1) by (apply Rmult_le_reg_r with b; [lra|]; unfold Rdiv; rewrite Rmult_assoc, Rinv_l; lra).
  rewrite <- Rpower_mult_distr by lra. apply Rmult_le_compat_r; [apply Rlt_le, exp_pos|apply power_below; auto].
Qed.

(** The relative overstatement by smoothing falls with the argument. *)
Lemma smin_excess_decr s x y : 0 < s -> x <= y -> smin s y - y <= smin s x - x.
Proof.
  intros Hs Hxy. destruct Hxy as [Hxy| ->]; [|lra].
  destruct (MVT_cor2 (smin s) (fun z => dsmin s z) x y Hxy) as (c & E & _).
  { intros z _. apply smin_deriv; auto. }
  pose proof (dsmin_pos s Hs c). nra.
Qed.
Lemma smin_ratio s e x y : 0 < s -> 0 <= e -> 0 < x -> x <= y -> smin s x <= (1 + e) * x -> smin s y <= (1 + e) * y.
Proof. intros Hs He Hx Hxy H. pose proof (smin_excess_decr s x y Hs Hxy). nra. Qed.

Section Region.
  Variables (p : pars) (r : region).
  Hypothesis Hr : In r (regions p).
  Hypothesis Hdt : 0 < dt p.
  Hypothesis Hk : 0 <= dk p < 1.
  Hypothesis Hs : 0 <= sr p.
  Hypothesis Ha : 0 <= alpha p <= 1.
  Hypothesis PD : positive_data p.
  Let Kc t := calibration_capital p t r.
  Let Gb t := baseline_GDP p t r.

  Lemma Kc_pos t : model_step p t -> 0 < Kc t.
  Proof. intros Ht. unfold Kc. rewrite <- calibration_is by auto. apply TFP_capital_pos; auto. Qed.
  Lemma Gb_pos t : model_step p t -> 0 < Gb t.
  Proof. intros Ht. destruct (PD r Hr) as [_ D]. apply D, Ht. Qed.
  (** Output is baseline GDP times a power of the capital ratio. *)
  Lemma output_ratio v t : feasible p v -> (0 < t <= tf p)%nat ->
    GDP_gross v t r = Gb t * Rpower (smin 10 (capital_stock v t r) / Kc t) (alpha p).
  Proof.
    intros F Ht. assert (M : model_step p t) by (unfold model_step; lia). unfold GDP_gross. rewrite (q_GDP_gross p v F) by auto.
    pose proof (C32_calibration_pf p t r Hdt Hk Hs PD Hr M) as C. unfold Gb. rewrite <- C. rewrite calibration_is by auto. fold (Kc t).
    destruct (PD r Hr) as [_ D]. destruct (D t M) as [P _]. pose proof (Kc_pos t M) as K.
    change (rval v v_capital_stock t r) with (capital_stock v t r). assert (S : 0 < smin 10 (capital_stock v t r)) by (apply smin_pos; lra).
    rewrite !pypow_pos by auto. assert (E : smin 10 (capital_stock v t r) = smin 10 (capital_stock v t r) / Kc t * Kc t) by (field; lra).
    rewrite E at 1. assert (0 < smin 10 (capital_stock v t r) / Kc t) by (apply Rdiv_lt_0_compat; auto).
    rewrite <- Rpower_mult_distr by auto. ring.
  Qed.
  Lemma Kc_ratio gmin gmax kap : 0 <= kap -> growth_between p r gmin gmax -> capital_ratio_at_most p r gmin kap ->
    forall t, model_step p t -> Kc t <= kap * Gb t.
  Proof.
    intros Hkap GB [K0 K1]. induction t as [|t IH]; intros Ht; unfold Kc, Gb in *.
    - cbn. apply Rmult_le_compat_r; [apply Rlt_le, (Gb_pos 0 Ht)|exact K0].
    - unfold model_step in *. specialize (IH ltac:(lia)). cbn [calibration_capital]. destruct (GB t Ht) as [G1 _].
      destruct (surv_range p Hdt Hk) as [_ [S0 S1]]. pose proof (Gb_pos t ltac:(unfold model_step; lia)) as P. unfold Gb in P.
      assert (survival p * calibration_capital p t r <= survival p * (kap * baseline_GDP p t r)) by (apply Rmult_le_compat_l; lra).
      assert ((survival p * kap + dt p * sr p) * baseline_GDP p t r <= gmin * kap * baseline_GDP p t r) by (apply Rmult_le_compat_r; lra).
      assert (kap * (gmin * baseline_GDP p t r) <= kap * baseline_GDP p (S t) r) by (apply Rmult_le_compat_l; auto).
      lra.
  Qed.

  Lemma ceiling_step gmin gmax kap eps mu c : 0 <= kap -> 0 <= mu -> growth_between p r gmin gmax -> capital_ratio_at_most p r gmin kap ->
    capital_ceiling p gmax kap eps mu c -> forall t y, (S t <= tf p)%nat -> c <= y ->
    c * Kc t + mu * (dt p * sr p) * (Gb (S t) * ((1 + eps) * Rpower y (alpha p)))
    <= (2 - survival p) * (y * Kc (S t)) - (y - c) * Kc t \/ 0 > 1 + eps.
  Proof.
    intros Hkap Hmu GB KR [C1 C2] t y Ht Hy. destruct (Rle_or_lt 0 (1 + eps)) as [He|He]; [left|right; lra].
    pose proof (Kc_ratio gmin gmax kap Hkap GB KR t ltac:(unfold model_step; lia)) as R. destruct (GB t Ht) as [_ G2]. fold (Gb t) (Gb (S t)) in G2.
    assert (X : Kc (S t) = survival p * Kc t + dt p * sr p * Gb t) by reflexivity. rewrite X.
    destruct (surv_range p Hdt Hk) as [_ [S0 S1]]. pose proof (Gb_pos t ltac:(unfold model_step; lia)) as P.
    pose proof (power_ray_above y c (alpha p) ltac:(lra) Hy Ha) as PR.
    assert (DS : 0 <= dt p * sr p) by (apply Rmult_le_pos; lra).
    assert (A1 : mu * (dt p * sr p) * (Gb (S t) * ((1 + eps) * Rpower y (alpha p)))
                 <= mu * (dt p * sr p) * (gmax * Gb t * ((1 + eps) * (y / c * Rpower c (alpha p))))).
    { apply Rmult_le_compat_l; [apply Rmult_le_pos; auto|]. apply Rmult_le_compat; [apply Rlt_le, Gb_pos; unfold model_step; lia| |exact G2|].
      - apply Rmult_le_pos; [auto|apply Rlt_le, exp_pos].
      - apply Rmult_le_compat_l; auto. }
    assert (A2 : mu * (dt p * sr p) * (gmax * Gb t * ((1 + eps) * (y / c * Rpower c (alpha p))))
                 <= (dt p * sr p * (2 - survival p) - (1 - survival p) * (1 - survival p) * kap) * y * Gb t).
    { replace (mu * (dt p * sr p) * (gmax * Gb t * ((1 + eps) * (y / c * Rpower c (alpha p)))))
        with (mu * gmax * (1 + eps) * (dt p * sr p) * Rpower c (alpha p) * (y / c * Gb t)) by (field; lra).
      replace ((dt p * sr p * (2 - survival p) - (1 - survival p) * (1 - survival p) * kap) * y * Gb t)
        with ((dt p * sr p * (2 - survival p) - (1 - survival p) * (1 - survival p) * kap) * c * (y / c * Gb t)) by (field; lra).
      apply Rmult_le_compat_r; [|exact C2]. apply Rmult_le_pos; [|lra]. apply Rlt_le, Rdiv_lt_0_compat; lra. }
    assert (A3 : (1 - survival p) * (1 - survival p) * y * Kc t <= (1 - survival p) * (1 - survival p) * y * (kap * Gb t)).
    { apply Rmult_le_compat_l; [|exact R]. apply Rmult_le_pos; [apply Rmult_le_pos; lra|lra]. }
    nra.
  Qed.

  Lemma capital_below gmin gmax kap eps mu c v : feasible p v -> 0 <= mu -> growth_between p r gmin gmax -> capital_ratio_at_most p r gmin kap ->
    smoothing_at_most p r eps -> capital_ceiling p gmax kap eps mu c ->
    (forall t, (0 < t <= tf p)%nat -> GDP_net v t r <= mu * GDP_gross v t r) ->
    forall t, model_step p t -> capital_stock v t r <= c * Kc t.
  Proof.
    intros F Hmu GB KR [He SM] CC NG. pose proof CC as [C1 C2].
    assert (Hkap : 0 <= kap) by (destruct KR as [K0 _]; destruct (PD r Hr); lra).
    induction t as [|t IH]; intros Ht.
    - unfold capital_stock. rewrite (q_capital0 p v F) by auto. pose proof (Kc_pos 0 Ht) as K. unfold Kc in *. cbn [calibration_capital] in *. nra.
    - unfold model_step in *. specialize (IH ltac:(lia)). apply Rnot_lt_le. intros L.
      pose proof (Kc_pos (S t) Ht) as KP. pose proof (Kc_pos t ltac:(unfold model_step; lia)) as KP0.
      set (y := capital_stock v (S t) r / Kc (S t)). assert (Y : capital_stock v (S t) r = y * Kc (S t)) by (unfold y; field; lra).
      assert (Hy : c < y) by (rewrite Y in L; nra).
      assert (Sm : smin 10 (capital_stock v (S t) r) <= (1 + eps) * capital_stock v (S t) r).
      { apply smin_ratio with (Kc (S t)); auto; [lra|nra|apply SM; lia]. }
      pose proof (capital_closed p v t r F Ht Hr Hdt Hk) as E. unfold investments in E. rewrite (q_investments p v F) in E by auto.
      change (rval v v_GDP_net (S t) r) with (GDP_net v (S t) r) in E.
      assert (O : GDP_gross v (S t) r <= Gb (S t) * ((1 + eps) * Rpower y (alpha p))).
      { rewrite (output_ratio v (S t) F) by lia. apply Rmult_le_compat_l; [apply Rlt_le, Gb_pos; auto|].
        apply Rle_trans with (Rpower ((1 + eps) * y) (alpha p)).
        - apply Rpower_le_base; [lra|apply Rdiv_lt_0_compat; [apply smin_pos; lra|auto]|].
          apply Rmult_le_reg_r with (Kc (S t)); [auto|]. unfold Rdiv. rewrite Rmult_assoc, Rinv_l by lra. rewrite Y in Sm. rewrite Y. lra.
        - rewrite <- Rpower_mult_distr by lra. apply Rmult_le_compat_r; [apply Rlt_le, exp_pos|]. apply power_above; lra. }
      pose proof (NG (S t) ltac:(lia)) as N.
      destruct (ceiling_step gmin gmax kap eps mu c Hkap Hmu GB KR CC t y Ht ltac:(lra)) as [Q|Q]; [|lra].
      assert (DS : 0 <= dt p * sr p) by (apply Rmult_le_pos; lra).
      assert (N2 : dt p * sr p * GDP_net v (S t) r <= dt p * sr p * (mu * (Gb (S t) * ((1 + eps) * Rpower y (alpha p))))).
      { apply Rmult_le_compat_l; [auto|]. apply Rle_trans with (1 := N). apply Rmult_le_compat_l; auto. }
      rewrite Y in E. nra.
  Qed.

  Lemma capital_above gmin gmax lam b v : feasible p v -> 0 <= lam -> 0 <= gmin -> growth_between p r gmin gmax -> capital_floor p gmin lam b ->
    (forall t, (0 < t <= tf p)%nat -> lam * GDP_gross v t r <= GDP_net v t r) ->
    forall t, model_step p t -> b * Kc t <= capital_stock v t r.
  Proof.
    intros F Hlam Hg GB [[B0 B1] B2] NG. induction t as [|t IH]; intros Ht.
    - unfold capital_stock. rewrite (q_capital0 p v F) by auto. pose proof (Kc_pos 0 Ht) as K. unfold Kc in *. cbn [calibration_capital] in *. nra.
    - unfold model_step in *. specialize (IH ltac:(lia)). apply Rnot_lt_le. intros L.
      pose proof (Kc_pos (S t) Ht) as KP. pose proof (Kc_pos t ltac:(unfold model_step; lia)) as KP0.
      pose proof (capital_closed p v t r F Ht Hr Hdt Hk) as E. unfold investments in E. rewrite (q_investments p v F) in E by auto.
      change (rval v v_GDP_net (S t) r) with (GDP_net v (S t) r) in E.
      destruct (surv_range p Hdt Hk) as [_ [S0 S1]]. pose proof (NG (S t) ltac:(lia)) as N.
      assert (DS : 0 <= dt p * sr p) by (apply Rmult_le_pos; lra).
      pose proof (output_ratio v (S t) F ltac:(lia)) as O. pose proof (Gb_pos (S t) Ht) as GP. pose proof (Gb_pos t ltac:(unfold model_step; lia)) as GP0.
      assert (YP : 0 < GDP_gross v (S t) r) by (rewrite O; apply Rmult_lt_0_compat; [auto|apply exp_pos]).
      assert (N0 : 0 <= dt p * sr p * GDP_net v (S t) r).
      { apply Rmult_le_pos; auto. apply Rle_trans with (2 := N). apply Rmult_le_pos; lra. }
      assert (KK : 0 < capital_stock v (S t) r) by (apply Rmult_lt_reg_r with (2 - survival p); nra).
      set (y := capital_stock v (S t) r / Kc (S t)). assert (Y : capital_stock v (S t) r = y * Kc (S t)) by (unfold y; field; lra).
      assert (Hy0 : 0 < y) by (unfold y; apply Rdiv_lt_0_compat; auto). assert (Hy : y < b) by (rewrite Y in L; nra).
      assert (O2 : Gb (S t) * Rpower y (alpha p) <= GDP_gross v (S t) r).
      { rewrite O. apply Rmult_le_compat_l; [lra|]. apply Rpower_le_base; [lra|auto|]. unfold y.
        apply Rmult_le_compat_r; [apply Rlt_le, Rinv_0_lt_compat; auto|]. apply Rlt_le, smin_gt; lra. }
      pose proof (power_ray_below y b (alpha p) Hy0 ltac:(lra) Ha) as PR. destruct (GB t Ht) as [G1 _]. fold (Gb t) (Gb (S t)) in G1.
      assert (A1 : dt p * sr p * (lam * (gmin * Gb t * (y / b * Rpower b (alpha p)))) <= dt p * sr p * GDP_net v (S t) r).
      { apply Rmult_le_compat_l; [auto|]. apply Rle_trans with (2 := N). apply Rmult_le_compat_l; [auto|]. apply Rle_trans with (2 := O2).
        apply Rmult_le_compat; [apply Rmult_le_pos; lra| |exact G1|exact PR].
        apply Rmult_le_pos; [apply Rlt_le, Rdiv_lt_0_compat; lra|apply Rlt_le, exp_pos]. }
      assert (A2 : dt p * sr p * ((2 - survival p) * y * Gb t) <= dt p * sr p * (lam * (gmin * Gb t * (y / b * Rpower b (alpha p))))).
      { apply Rmult_le_compat_l; [auto|].
        replace (lam * (gmin * Gb t * (y / b * Rpower b (alpha p)))) with (lam * gmin * Rpower b (alpha p) * (y / b * Gb t)) by (field; lra).
        replace ((2 - survival p) * y * Gb t) with ((2 - survival p) * b * (y / b * Gb t)) by (field; lra).
        apply Rmult_le_compat_r; [|exact B2]. apply Rmult_le_pos; [|lra]. apply Rlt_le, Rdiv_lt_0_compat; lra. }
      assert (X : Kc (S t) = survival p * Kc t + dt p * sr p * Gb t) by reflexivity.
      rewrite Y, X in E.
      assert (A3 : (2 - survival p) * survival p * (y * Kc t) <= y * Kc t).
      { assert (0 < y * Kc t) by (apply Rmult_lt_0_compat; auto).
        assert ((2 - survival p) * survival p <= 1) by nra. nra. }
      nra.
  Qed.
End Region.

(** No plan with net GDP at most [mu] times gross GDP makes a region richer than this. *)
Lemma C69_GDP_ceiling_pf : forall p v r gmin gmax kap eps mu c,
  feasible p v -> In r (regions p) -> 0 < dt p -> 0 <= dk p < 1 -> 0 <= sr p -> 0 <= alpha p <= 1 -> positive_data p -> 0 <= mu ->
  growth_between p r gmin gmax -> capital_ratio_at_most p r gmin kap -> smoothing_at_most p r eps -> capital_ceiling p gmax kap eps mu c ->
  (forall t, (0 < t <= tf p)%nat -> GDP_net v t r <= mu * GDP_gross v t r) ->
  forall t, model_step p t -> GDP_gross v t r <= (1 + eps) * Rpower c (alpha p) * baseline_GDP p t r.
Proof.
  intros p v r gmin gmax kap eps mu c F Hr Hdt Hk Hs Ha PD Hmu GB KR SM CC NG t Ht.
  pose proof (capital_below p r Hr Hdt Hk Hs Ha PD gmin gmax kap eps mu c v F Hmu GB KR SM CC NG t Ht) as K.
  destruct SM as [He SM]. destruct CC as [C1 C2].
  assert (P1 : 1 <= Rpower c (alpha p)) by (rewrite <- (Rpower_O c) by lra; apply Rle_Rpower; lra).
  pose proof (Gb_pos p r Hr PD t Ht) as G. destruct t as [|t].
  - unfold GDP_gross. rewrite (q_GDP_gross0 p v F) by auto. rewrite <- (Rmult_1_l (baseline_GDP p 0 r)) at 1. apply Rmult_le_compat_r; [lra|nra].
  - rewrite (output_ratio p r Hr Hdt Hk Hs PD v (S t) F) by (unfold model_step in Ht; lia).
    rewrite (Rmult_comm _ (baseline_GDP p (S t) r)). apply Rmult_le_compat_l; [lra|].
    pose proof (Kc_pos p r Hr Hdt Hk Hs PD (S t) Ht) as KP. set (Kc := calibration_capital p (S t) r) in *.
    apply Rle_trans with (Rpower ((1 + eps) * c) (alpha p)).
    + apply Rpower_le_base; [lra|apply Rdiv_lt_0_compat; [apply smin_pos; lra|auto]|].
      apply Rmult_le_reg_r with Kc; [auto|]. unfold Rdiv. rewrite Rmult_assoc, Rinv_l by lra. rewrite Rmult_1_r, Rmult_assoc.
      apply Rle_trans with (smin 10 (c * Kc)); [apply smin_le; lra|]. apply smin_ratio with Kc; auto; [lra|nra|apply SM; unfold model_step in Ht; lia].
    + rewrite <- Rpower_mult_distr by lra. apply Rmult_le_compat_r; [lra|]. apply power_above; lra.
Qed.

(** As long as costs, damages and transfers leave the share [lam] of gross GDP, no region falls below this. *)
Lemma C69_GDP_floor_pf : forall p v r gmin gmax lam b,
  feasible p v -> In r (regions p) -> 0 < dt p -> 0 <= dk p < 1 -> 0 <= sr p -> 0 <= alpha p <= 1 -> positive_data p -> 0 <= lam -> 0 <= gmin ->
  growth_between p r gmin gmax -> capital_floor p gmin lam b ->
  (forall t, (0 < t <= tf p)%nat -> lam * GDP_gross v t r <= GDP_net v t r) ->
  forall t, model_step p t -> Rpower b (alpha p) * baseline_GDP p t r <= GDP_gross v t r.
Proof.
  intros p v r gmin gmax lam b F Hr Hdt Hk Hs Ha PD Hlam Hg GB CF NG t Ht.
  pose proof (capital_above p r Hr Hdt Hk Hs Ha PD gmin gmax lam b v F Hlam Hg GB CF NG t Ht) as K.
  destruct CF as [[B0 B1] B2]. pose proof (Gb_pos p r Hr PD t Ht) as G. destruct t as [|t].
  - unfold GDP_gross. rewrite (q_GDP_gross0 p v F) by auto.
    assert (Rpower b (alpha p) <= 1).
    { replace 1 with (Rpower 1 (alpha p)) by (unfold Rpower; rewrite ln_1, Rmult_0_r, exp_0; auto). apply Rpower_le_base; lra. }
    nra.
  - rewrite (output_ratio p r Hr Hdt Hk Hs PD v (S t) F) by (unfold model_step in Ht; lia).
    rewrite (Rmult_comm _ (baseline_GDP p (S t) r)). apply Rmult_le_compat_l; [lra|].
    pose proof (Kc_pos p r Hr Hdt Hk Hs PD (S t) Ht) as KP. set (Kc := calibration_capital p (S t) r) in *.
    apply Rpower_le_base; [lra|auto|]. apply Rmult_le_reg_r with Kc; [auto|]. unfold Rdiv. rewrite Rmult_assoc, Rinv_l, Rmult_1_r by lra.
    apply Rle_trans with (1 := K). apply Rlt_le, smin_gt; lra.
Qed.
