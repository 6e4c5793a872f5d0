(** C70: with prescribed baseline emissions abatement can be shifted between regions without changing the climate. *)
From Coq Require Import Reals List Lra Lia.
From Verif Require Import ModelFacts SoftFacts ModelSpec PowFacts Equations Equations2 Build VarFacts EconLemmas BuildFacts BuildLemmas DefinedFacts
  SolveFacts ClimateSpec ClimateLemmas WelfareSpec WelfareLemmas MitigationLemmas PolicySpec PolicyLemmas Simulate SimFacts ExistSpec ExistFacts ExistLemmas ReallocateSpec.
Import ListNotations.
Open Scope R_scope.
Set Bullet Behavior "Strict Subproofs".

Section Realloc.
  Variables (p : pars) (v : point) (a : nat -> region -> R).
  Hypotheses (F : feasible p v) (NR : numeric_ranges p) (SD : sound_data p) (U : usable_choices p) (SL : slr_logistic_ok p) (Al : 0 <= alpha p < 1).
  Hypotheses (UC : use_carbon_intensity p = false) (ER : effort_regime p = noregime) (NT : transfer p = notransfer).
  Hypotheses (MS : forall r, In r (regions p) -> 0 <= MAC_scaling p r) (MG : 0 <= MAC_gamma p) (ML : rel_mitigation_costs_min_level p <= 0).
  Hypothesis BE : forall t r, model_step p t -> In r (regions p) -> 0 <= baseline_emissions p t r.
  Notation cum := (cumulative_emissions v).
  Notation w := (sim p a cum (fun _ => 0)).
  Notation em t r := (match t%nat with O => baseline_emissions p 0 r | S _ => (1 - a t r) * baseline_emissions p t r end).
  Hypothesis A0 : forall r, In r (regions p) -> a 0%nat r = 0.
  Hypothesis SUM : forall t, (1 <= t <= tf p)%nat -> Rsum (fun r => (1 - a t r) * baseline_emissions p t r) (regions p) = global_emissions v t.
  Hypothesis RANGE : forall t r, (1 <= t <= tf p)%nat -> In r (regions p) ->
    0 <= a t r <= 5/2 /\ learning_factor v t * MAC_scaling p r * MAC_gamma p * pypow (a t r) (MAC_beta p) <= 2 * MAC_gamma p.
  Hypothesis MINR : forall t r l, model_step p t -> In r (regions p) -> regional_min_level p = Some l -> l <= em t r.
  Hypothesis INER : forall t r i, (S t <= tf p)%nat -> In r (regions p) -> inertia_regional p = Some i ->
    dt p * i * baseline_emissions p 0 r <= em (S t) r - em t r.
  Hypothesis NINC : forall t r, (S t <= tf p)%nat -> In r (regions p) -> non_increasing_after_2100 p = true -> 2100 < year p t -> em (S t) r <= em t r.

  Lemma r_em t r : s_em p a cum t r = em t r.
  Proof. unfold s_em. destruct t; auto. unfold s_base. rewrite UC. reflexivity. Qed.
  Lemma r_ge t : model_step p t -> s_ge p a cum t = global_emissions v t.
  Proof.
    intros Ht. unfold s_ge. destruct t as [|t].
    - unfold global_emissions. rewrite (q_global p v F 0 Ht). apply Rsum_ext. intros r Hr. rewrite r_em. symmetry. apply (q_emissions0 p v F); auto.
    - rewrite <- (SUM (S t)) by (unfold model_step in Ht; lia). apply Rsum_ext. intros r Hr. apply r_em.
  Qed.
  Lemma r_temp t : model_step p t -> s_temp p cum t = temperature v t.
  Proof. intros Ht. unfold s_temp, temperature. rewrite (q_temp p v F t Ht). reflexivity. Qed.
  Lemma r_slr t : model_step p t -> s_th p cum t = thermal_SLR v t /\ s_gs p cum t = glacier_SLR v t /\ s_gi p cum t = icesheet_SLR v t.
  Proof.
    unfold thermal_SLR, glacier_SLR, icesheet_SLR. induction t as [|t IH]; intros Ht.
    - destruct (q_slr0 p v F) as (-> & -> & ->). auto.
    - assert (Ht' : model_step p t) by (unfold model_step in *; lia). destruct (IH Ht') as (I1 & I2 & I3).
      destruct (q_slr_step p v F t Ht) as (-> & -> & ->). pose proof (r_temp t Ht') as T. unfold temperature in T. cbn [s_th s_gs s_gi]. rewrite T, I1, I2, I3. auto.
  Qed.
  Lemma r_total t : model_step p t -> s_slr p cum t = total_SLR v t.
  Proof. intros Ht. unfold s_slr, total_SLR. destruct (r_slr t Ht) as (-> & -> & ->). rewrite (q_slr_total p v F t Ht). reflexivity. Qed.
  Lemma r_damage t r : model_step p t -> In r (regions p) -> s_dam p cum t r = damage_costs v t r /\ (dmg_module p = COACCH -> s_ds p cum t r = sealevel_damages v t r).
  Proof.
    intros Ht Hr. assert (H0 : model_step p 0) by (unfold model_step; lia). destruct (dmg_module p) eqn:D.
    - destruct (C39_damages_follow_curve_pf p v t r F D Ht Hr) as (E1 & E2 & E3 & _). unfold s_dam. rewrite D. split.
      + rewrite E1, E2, E3. unfold s_dn, s_ds. rewrite (r_temp t Ht), (r_total t Ht), (r_total 0 H0). lra.
      + intros _. rewrite E3. unfold s_ds. rewrite (r_total t Ht), (r_total 0 H0). lra.
    - split; [|discriminate]. unfold s_dam. rewrite D. symmetry. apply (q_nodamage p v F); auto.
  Qed.
  Lemma r_learn t : model_step p t -> s_learn p cum t = learning_factor v t.
  Proof.
    intros Ht. unfold s_learn, learning_factor. rewrite (q_learning p v F t Ht), (q_LBD p v F t Ht), (q_LOT p v F t Ht). reflexivity.
  Qed.
  Lemma r_unit_nonneg t r : model_step p t -> In r (regions p) -> 0 <= s_unit p a cum t r.
  Proof.
    intros Ht Hr. unfold s_unit. rewrite (r_learn t Ht). assert (HB : 0 < MAC_beta p) by apply NR.
    assert (L : 0 < learning_factor v t) by (apply (learning_pos p v t F Ht); destruct NR as (_ & _ & _ & _ & X); lra).
    assert (A : 0 <= a t r) by (destruct t; [rewrite A0 by auto; lra|apply RANGE; [unfold model_step in Ht; lia|auto]]).
    rewrite pypow_apow by lra. assert (0 <= apow (a t r) (MAC_beta p + 1)) by (apply apow_nonneg).
    unfold Rdiv. apply Rmult_le_pos; [|apply Rlt_le, Rinv_0_lt_compat; lra]. repeat apply Rmult_le_pos; auto; lra.
  Qed.
  Lemma r_limits : within_limits p w.
  Proof.
    intros t Ht. assert (RG : forall T, model_step p T -> s_ge p a cum T = global_emissions v T) by apply r_ge.
    unfold cumulative_emissions at 1. unfold temperature, global_emissions, thermal_SLR, glacier_SLR, icesheet_SLR. cbn [gval sim].
    destruct (q_bounds p _ F t Ht) as (B1 & B2 & B3 & _). destruct (r_slr t Ht) as (S1 & S2 & S3).
    split; [apply (q_cum_nonneg p v F t Ht)|]. split; [intros T X Y; rewrite (r_temp t Ht); apply (q_target p v F t T Ht X Y)|].
    split; [intros B X Y; apply (q_budget p v F t B Ht X Y)|]. split; [intros B X Z Y; rewrite (RG t Ht); apply (q_net_zero p v F t B Ht X Z Y)|].
    split; [intros l X; rewrite (RG t Ht); apply (q_min_g p v F t l Ht X)|].
    split; [intros i s X ->; assert (Hs : model_step p s) by (unfold model_step in *; lia); rewrite (RG (S s) Ht), (RG s Hs); apply Rge_le, (q_inertia_g p v F s i Ht X)|].
    rewrite S1, S2, S3. split; [exact B1|]. split; [exact B2|]. split; [exact B3|].
    intros r Hr. destruct (q_bounds_r p _ F t r Ht Hr) as (C1 & C2 & C3 & _). destruct (r_damage t r Ht Hr) as [D1 D2].
    unfold relative_abatement, carbonprice, sealevel_damages, regional_emissions, rel_mitigation_costs, damage_costs, GDP_gross. cbn [rval sim].
    pose proof (sim_gross p a cum NR SD t r Ht Hr) as YP.
    assert (AR : 0 <= a t r <= 5/2) by (destruct t; [rewrite A0 by auto; lra|apply RANGE; [unfold model_step in Ht; lia|auto]]).
    split; [exact AR|]. split.
    { unfold s_price. rewrite (r_learn t Ht). split.
      - assert (L : 0 < learning_factor v t) by (apply (learning_pos p v t F Ht); destruct NR as (_ & _ & _ & _ & X); lra). assert (HB : 0 < MAC_beta p) by apply NR.
        rewrite pypow_apow by lra. pose proof (apow_nonneg (a t r) (MAC_beta p)). repeat apply Rmult_le_pos; auto; lra.
      - destruct t as [|t]; [rewrite A0 by auto; assert (HB : 0 < MAC_beta p) by apply NR; rewrite pypow_apow by lra; rewrite apow_0 by lra; lra|].
        apply RANGE; [unfold model_step in Ht; lia|auto]. }
    split; [intros D; rewrite (D2 D); apply C3; auto|].
    split; [intros l X; rewrite r_em; apply MINR; auto|].
    split; [intros i s X ->; rewrite !r_em; apply INER; auto|].
    split; [intros s X -> Y; rewrite !r_em; apply NINC; auto|].
    split; [|split; [|rewrite ER; repeat split; intros; discriminate]].
    - intros _. apply Rle_trans with (1 := ML). unfold Rdiv. apply Rmult_le_pos; [|apply Rlt_le, Rinv_0_lt_compat; exact YP].
      unfold s_M, s_base. rewrite UC. apply Rmult_le_pos; [apply r_unit_nonneg; auto|apply BE; auto].
    - intros TR. rewrite NT in TR. discriminate TR.
  Qed.
  Lemma r_feasible : feasible p w.
  Proof.
    apply sim_feasible; auto; try apply U.
    - intros X. rewrite X in UC. discriminate UC.
    - apply (q_cum0 p v F).
    - intros t Ht. unfold cumulative_emissions at 1 2. rewrite (q_cum p v F t Ht).
      assert (Ht' : model_step p t) by (unfold model_step in *; lia). rewrite (r_ge (S t) Ht), (r_ge t Ht'). unfold global_emissions. destruct (cum_trapz p); lra.
    - apply r_limits.
  Qed.
End Realloc.
