(** C27-C29 *)
From Coq Require Import Lra Lia.
From Coquelicot Require Import Coquelicot.
From Verif Require Import ModelFacts SoftFacts ModelSpec Equations PowFacts SoftLemmas.

(** Scale of the marginal abatement cost curve of region r at step t. *)
Definition mac_scale (p : pars) (v : point) (t : nat) (r : region) : R :=
  learning_factor v t * MAC_scaling p r * MAC_gamma p.
(** Marginal abatement cost and abatement cost (per unit of baseline emissions) at relative abatement a. *)
Definition mac (p : pars) (k a : R) : R := k * apow a (MAC_beta p).
Definition ac (p : pars) (k a : R) : R := k * (apow a (MAC_beta p + 1) / (MAC_beta p + 1)).

Lemma LBD_pos p v t : feasible p v -> model_step p t -> 0 < LBD_factor v t.
Proof.
  intros F Ht. unfold LBD_factor. rewrite (q_LBD p v F) by auto. apply pypow_pos_pos. apply smin_pos. lra.
Qed.
Lemma LOT_pos p v t : feasible p v -> model_step p t -> -1 < LOT_rate p -> 0 < LOT_factor v t.
Proof.
  intros F Ht HL. unfold LOT_factor. rewrite (q_LOT p v F) by auto.
  apply Rdiv_lt_0_compat; [lra|]. apply pow_lt. lra.
Qed.
Lemma learning_pos p v t : feasible p v -> model_step p t -> -1 < LOT_rate p -> 0 < learning_factor v t.
Proof.
  intros F Ht HL. unfold learning_factor. rewrite (q_learning p v F) by auto.
  apply Rmult_lt_0_compat; [apply (LBD_pos p)|apply (LOT_pos p)]; auto.
Qed.
Lemma mac_scale_pos p v t r : feasible p v -> model_step p t -> -1 < LOT_rate p ->
  0 < MAC_scaling p r -> 0 < MAC_gamma p -> 0 < mac_scale p v t r.
Proof.
  intros F Ht HL HM HG. unfold mac_scale.
  apply Rmult_lt_0_compat; auto. apply Rmult_lt_0_compat; auto. apply (learning_pos p); auto.
Qed.

Lemma C27_cost_curve_in_solution_pf : forall p v t r, feasible p v -> model_step p t ->
  In r (regions p) -> 0 < MAC_beta p ->
  carbonprice v t r = mac p (mac_scale p v t r) (relative_abatement v t r) /\
  area_under_MAC v t r = ac p (mac_scale p v t r) (relative_abatement v t r) * baseline v t r.
Proof.
  intros p v t r F Ht Hr Hb. unfold mac, ac, mac_scale, carbonprice, area_under_MAC, relative_abatement.
  destruct (q_bounds_r p v F t r Ht Hr) as [[Ha _] _].
  rewrite (q_carbonprice p v F) by auto. rewrite (q_area p v F) by auto.
  rewrite !pypow_apow by (auto; lra). split; [reflexivity|]. unfold learning_factor, baseline. lra.
Qed.
Lemma C27_cost_is_integral_of_marginal_cost_pf : forall p k a, 0 < MAC_beta p -> 0 <= a ->
  is_RInt (mac p k) 0 a (ac p k a) /\ derivable_pt_lim (ac p k) a (mac p k a) /\ ac p k 0 = 0.
Proof.
  intros p k a Hb Ha. unfold mac, ac. split; [|split].
  - apply (is_RInt_scal (fun a => apow a (MAC_beta p)) 0 a k). apply apow_RInt; auto.
  - apply (derivable_pt_lim_scal (fun a => apow a (MAC_beta p + 1) / (MAC_beta p + 1)) k).
    apply apow_deriv; auto.
  - rewrite apow_0 by lra. field. lra.
Qed.
Lemma C27_increasing_convex_pf : forall p k x y, 0 < k -> 0 < MAC_beta p -> 0 <= x -> x < y ->
  mac p k x < mac p k y /\ ac p k x < ac p k y /\
  forall l, 0 <= l <= 1 -> ac p k (l * x + (1 - l) * y) <= l * ac p k x + (1 - l) * ac p k y.
Proof.
  intros p k x y Hk Hb Hx Hxy. unfold mac, ac. split; [|split].
  - apply Rmult_lt_compat_l; auto. apply apow_lt; auto.
  - apply Rmult_lt_compat_l; auto. unfold Rdiv. apply Rmult_lt_compat_r; [apply Rinv_0_lt_compat; lra|].
    apply apow_lt; auto; lra.
  - intros l Hl. pose proof (apow_convex (MAC_beta p) x y l Hb Hx ltac:(lra) Hl). nra.
Qed.
(** ... and the scale is positive, so both curves are increasing in every solution. *)
Lemma C27_scale_positive_pf : forall p v t r, feasible p v -> model_step p t -> 0 <= LOT_rate p ->
  0 < MAC_scaling p r -> 0 < MAC_gamma p -> 0 < mac_scale p v t r.
Proof. intros. apply mac_scale_pos; auto; lra. Qed.

Lemma C28_initial_year_pf : forall p v r, feasible p v -> In r (regions p) -> 0 < MAC_beta p ->
  0 <= LOT_rate p -> 0 < MAC_scaling p r -> 0 < MAC_gamma p ->
  carbonprice v 0 r = 0 /\ relative_abatement v 0 r = 0 /\ area_under_MAC v 0 r = 0 /\
  forall t, model_step p t -> (carbonprice v t r = 0 <-> relative_abatement v t r = 0).
Proof.
  intros p v r F Hr Hb HL HM HG.
  assert (Z : forall t, model_step p t -> (carbonprice v t r = 0 <-> relative_abatement v t r = 0)).
  { intros t Ht. destruct (C27_cost_curve_in_solution_pf p v t r F Ht Hr Hb) as [E _].
    pose proof (mac_scale_pos p v t r F Ht ltac:(lra) HM HG).
    destruct (q_bounds_r p v F t r Ht Hr) as [[Ha _] _].
    rewrite E. unfold mac. split.
    - intros H0. apply Rmult_integral in H0 as [H0|H0]; [lra|]. eapply apow_eq0; eauto.
    - intros ->. rewrite apow_0 by lra. lra. }
  assert (P0 : carbonprice v 0 r = 0) by (apply (q_carbonprice0 p v F); auto).
  assert (A0 : relative_abatement v 0 r = 0) by (apply Z; auto; unfold model_step; lia).
  split; auto. split; auto. split; auto.
  destruct (C27_cost_curve_in_solution_pf p v 0%nat r F ltac:(unfold model_step; lia) Hr Hb) as [_ E].
  rewrite E, A0. unfold ac. rewrite apow_0 by lra. field. lra.
Qed.

(** ** learning *)
Lemma log_LBD_nonpos p : 0 < LBD_rate p <= 1 -> log_LBD_rate p <= 0.
Proof.
  intros [H0 H1]. unfold log_LBD_rate.
  assert (0 < ln 2) by (rewrite <- ln_1; apply ln_increasing; lra).
  assert (ln (LBD_rate p) <= 0).
  { destruct H1 as [H1| ->]; [left; rewrite <- ln_1; apply ln_increasing; lra|rewrite ln_1; lra]. }
  unfold Rdiv. assert (0 < / ln 2) by (apply Rinv_0_lt_compat; auto). nra.
Qed.
(** The argument of the power: a smooth version of max(1 + cumulative mitigation / scaling, 0). *)
Definition experience (p : pars) (v : point) (t : nat) : R :=
  smin 1 (cumulative_mitigation p v t / LBD_scaling p + 1).
Lemma LBD_exp p v t : feasible p v -> model_step p t ->
  LBD_factor v t = Rpower (experience p v t) (log_LBD_rate p) /\ 0 < experience p v t.
Proof.
  intros F Ht. unfold LBD_factor, experience, cumulative_mitigation, cumulative_emissions.
  rewrite (q_LBD p v F) by auto.
  assert (0 < smin 1 ((cumulative_global_baseline_emissions p t - gval v g_cumulative_emissions t)
                       / LBD_scaling p + 1)) by (apply smin_pos; lra).
  rewrite pypow_pos; auto.
Qed.

Lemma C29_learning_by_doing_monotone_pf : forall p v w s t, feasible p v -> feasible p w ->
  model_step p s -> model_step p t -> 0 < LBD_rate p <= 1 -> 0 < LBD_scaling p ->
  cumulative_mitigation p v s <= cumulative_mitigation p w t ->
  LBD_factor w t <= LBD_factor v s.
Proof.
  intros p v w s t Fv Fw Hs Ht HR HS HM.
  destruct (LBD_exp p v s Fv Hs) as [-> P1]. destruct (LBD_exp p w t Fw Ht) as [-> P2].
  apply Rpower_anti_base; auto. apply log_LBD_nonpos; auto.
  unfold experience. apply smin_le; [lra|]. apply Rplus_le_compat_r. unfold Rdiv.
  apply Rmult_le_compat_r; auto. left. apply Rinv_0_lt_compat; auto.
Qed.
Lemma C29_doubling_pf : forall p v w s t, feasible p v -> feasible p w ->
  model_step p s -> model_step p t -> 0 < LBD_rate p ->
  experience p w t = 2 * experience p v s -> LBD_factor w t = LBD_rate p * LBD_factor v s.
Proof.
  intros p v w s t Fv Fw Hs Ht HR HE.
  destruct (LBD_exp p v s Fv Hs) as [-> P1]. destruct (LBD_exp p w t Fw Ht) as [-> P2].
  rewrite HE.
  rewrite <- Rpower_mult_distr by lra. f_equal.
  unfold Rpower, log_LBD_rate.
  assert (0 < ln 2) by (rewrite <- ln_1; apply ln_increasing; lra).
  replace (ln (LBD_rate p) / ln 2 * ln 2) with (ln (LBD_rate p)) by (field; lra).
  apply exp_ln; auto.
Qed.
(** experience is 1 + cumulative mitigation / scaling, up to the smoothing (at most 1/(25 PI)) *)
Lemma C29_experience_pf : forall p v t,
  0 < experience p v t - Rmax (1 + cumulative_mitigation p v t / LBD_scaling p) 0 <= 1 / (25 * PI).
Proof.
  intros p v t. unfold experience.
  pose proof (smin_gap 1 ltac:(lra) (cumulative_mitigation p v t / LBD_scaling p + 1)) as G.
  rewrite scale_PI in G by lra. rewrite (Rplus_comm 1). exact G.
Qed.
(** At zero cumulative mitigation the factor is close to, but for a rate below 1 never equal to, 1. *)
Lemma C29_no_mitigation_factor_pf : forall p v t, feasible p v -> model_step p t ->
  0 < LBD_rate p <= 1 -> cumulative_mitigation p v t = 0 ->
  Rpower (1 + 1 / (25 * PI)) (log_LBD_rate p) <= LBD_factor v t <= 1.
Proof.
  intros p v t F Ht HR HM. destruct (LBD_exp p v t F Ht) as [-> P].
  pose proof (C29_experience_pf p v t) as G. rewrite HM in G.
  replace (1 + 0 / LBD_scaling p) with 1 in G by (unfold Rdiv; lra).
  rewrite Rmax_left in G by lra. pose proof (log_LBD_nonpos p HR). split.
  - apply Rpower_anti_base; lra.
  -
    apply Rle_trans with (Rpower 1 (log_LBD_rate p)); [apply Rpower_anti_base; lra|].
    unfold Rpower. rewrite ln_1, Rmult_0_r, exp_0. lra.
Qed.
Lemma C29_factor_one_at_zero_refuted_pf : forall p v t, feasible p v -> model_step p t ->
  0 < LBD_rate p < 1 -> cumulative_mitigation p v t = 0 -> LBD_factor v t < 1.
Proof.
  intros p v t F Ht HR HM. destruct (LBD_exp p v t F Ht) as [-> P].
  pose proof (C29_experience_pf p v t) as G. rewrite HM in G.
  replace (1 + 0 / LBD_scaling p) with 1 in G by (unfold Rdiv; lra).
  rewrite Rmax_left in G by lra.
  unfold Rpower. rewrite <- exp_0. apply exp_increasing.
  assert (0 < ln 2) by (rewrite <- ln_1; apply ln_increasing; lra).
  assert (ln (LBD_rate p) < 0) by (rewrite <- ln_1; apply ln_increasing; lra).
  assert (0 < ln (experience p v t)) by (rewrite <- ln_1; apply ln_increasing; lra).
  unfold log_LBD_rate, Rdiv. assert (0 < / ln 2) by (apply Rinv_0_lt_compat; auto). assert (ln (LBD_rate p) * / ln 2 < 0) by nra. nra.
Qed.
Lemma C29_learning_over_time_pf : forall p v s t, feasible p v -> 0 <= LOT_rate p ->
  (s <= t)%nat -> model_step p t ->
  LOT_factor v t = 1 / (1 + LOT_rate p) ^ t /\ 0 < LOT_factor v t <= LOT_factor v s.
Proof.
  intros p v s t F HL Hst Ht. unfold model_step in Ht. unfold LOT_factor.
  rewrite !(q_LOT p v F) by (auto; lia). split; [reflexivity|]. split.
  - apply Rdiv_lt_0_compat; [lra|apply pow_lt; lra].
  - unfold Rdiv. rewrite !Rmult_1_l. apply Rinv_le_contravar; [apply pow_lt; lra|].
    apply Rle_pow; auto. lra.
Qed.
Lemma C29_same_abatement_costs_no_more_pf : forall p v s t r a, feasible p v ->
  0 < LBD_rate p <= 1 -> 0 < LBD_scaling p -> 0 <= LOT_rate p -> 0 < MAC_beta p ->
  0 <= MAC_scaling p r -> 0 <= MAC_gamma p ->
  (s <= t)%nat -> model_step p t -> cumulative_mitigation p v s <= cumulative_mitigation p v t ->
  0 <= ac p (mac_scale p v t r) a <= ac p (mac_scale p v s r) a.
Proof.
  intros p v s t r a F HR HS HL Hb HM HG Hst Ht HC.
  assert (Hs : model_step p s) by (unfold model_step in *; lia).
  pose proof (C29_learning_by_doing_monotone_pf p v v s t F F Hs Ht HR HS HC).
  destruct (C29_learning_over_time_pf p v s t F HL Hst Ht) as [_ [L1 L2]].
  pose proof (LBD_pos p v t F Ht). pose proof (LBD_pos p v s F Hs).
  assert (LF : 0 <= learning_factor v t <= learning_factor v s).
  { unfold learning_factor. rewrite !(q_learning p v F) by auto.
    unfold LBD_factor, LOT_factor in *. split; [apply Rmult_le_pos; lra|]. apply Rmult_le_compat; lra. }
  unfold ac, mac_scale.
  assert (0 <= apow a (MAC_beta p + 1) / (MAC_beta p + 1)).
  { unfold Rdiv. apply Rmult_le_pos; [apply apow_nonneg|]. left. apply Rinv_0_lt_compat. lra. }
  split.
  - apply Rmult_le_pos; [repeat apply Rmult_le_pos; auto; lra|auto].
  - apply Rmult_le_compat_r; auto. apply Rmult_le_compat_r; auto. apply Rmult_le_compat_r; auto. lra.
Qed.
