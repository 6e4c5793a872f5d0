(** C39-C42: damages and sea-level rise. *)
From Coq Require Import Lra Lia.
From Verif Require Import ModelFacts SoftFacts ModelSpec Equations Equations2 Build VarFacts BuildFacts BuildLemmas ClimateSpec.

Lemma form_curve v d x r e : functional_form d x r = Ok e -> deno v e = damage_curve d r (deno v x).
Proof.
  unfold functional_form, damage_curve.
  destruct (str_contains "Linear" (d_form d r)); [intros [= <-]; reflexivity|].
  destruct (str_contains "Quadratic" (d_form d r)); [intros [= <-]; reflexivity|].
  destruct (str_contains "Logistic" (d_form d r)); [|discriminate].
  intros [= <-]. unfold logistic. cbn [deno]. rewrite deno_soft_max. reflexivity.
Qed.

Lemma C39_damages_follow_curve_pf : forall p v t r, feasible p v -> dmg_module p = COACCH -> model_step p t -> In r (regions p) ->
  damage_costs v t r = temperature_damages v t r + sealevel_damages v t r /\
  temperature_damages v t r = damage_scale_factor p *
    (damage_curve (dmg_noslr p) r (temperature v t - 6/10) - damage_curve (dmg_noslr p) r (T0 p - 6/10)) /\
  sealevel_damages v t r = damage_scale_factor p *
    (damage_curve (dmg_slr p) r (total_SLR v t) - damage_curve (dmg_slr p) r (total_SLR v 0)) /\
  (t = 0%nat -> temperature_damages v t r = 0 /\ sealevel_damages v t r = 0 /\ damage_costs v t r = 0).
Proof.
  intros p v t r F D Ht Hr.
  pose proof (q_dm_total p v F D t r Ht Hr) as A.
  destruct (q_dm_noslr p v F D t r Ht Hr) as (e1 & e2 & E1 & E2 & B).
  destruct (q_dm_slr p v F D t r Ht Hr) as (f1 & f2 & F1 & F2 & C).
  rewrite (form_curve v _ _ _ _ E1), (form_curve v _ _ _ _ E2) in B.
  rewrite (form_curve v _ _ _ _ F1), (form_curve v _ _ _ _ F2) in C.
  cbn [deno] in B, C.
  split; [exact A|]. split; [exact B|]. split; [exact C|].
  intros ->.
  assert (T : gval v g_temperature 0 = T0 p) by (rewrite (q_temp p v F 0 Ht), (q_cum0 p v F); ring).
  rewrite T in B. unfold damage_costs, temperature_damages, sealevel_damages.
  rewrite A, B, C. repeat split; ring.
Qed.

(** A region with an unknown functional form: the damage rule raises NotImplementedError, the model is
    never built. *)
Lemma C39_unknown_form_pf : forall extra n p t r, dmg_module p = COACCH -> In r (regions p) ->
  ~ (known_form (d_form (dmg_noslr p) r) /\ known_form (d_form (dmg_slr p) r)) ->
  (c_damage_costs_non_slr p t r = Raise NotImplementedError \/ c_damage_costs_slr p t r = Raise NotImplementedError) /\
  (forall comps, build extra n p <> Ok comps) /\ (forall v, ~ feasible p v).
Proof.
  intros extra n p t r D Hr K.
  assert (KF : forall d x, functional_form d x r = Err NotImplementedError \/ known_form (d_form d r)).
  { intros d x. unfold functional_form, known_form.
    destruct (str_contains "Linear" (d_form d r)); auto. destruct (str_contains "Quadratic" (d_form d r)); auto.
    destruct (str_contains "Logistic" (d_form d r)); auto. }
  assert (R : forall t, c_damage_costs_non_slr p t r = Raise NotImplementedError \/ c_damage_costs_slr p t r = Raise NotImplementedError).
  { intros u. unfold c_damage_costs_non_slr, c_damage_costs_slr, damage_fct.
    destruct (KF (dmg_noslr p) (EG g_temperature u - ENum (6/10))%E) as [->|K1]; [left; reflexivity|].
    destruct (KF (dmg_slr p) (EG g_total_SLR u)) as [->|K2]; [right; reflexivity|].
    destruct K; auto. }
  split; [apply R|]. split.
  - intros comps B. assert (B' : exists comps, build extra n p = Ok comps) by eauto. apply build_iff in B'.
    destruct B' as (_ & _ & A).
    assert (A1 : cok (c_damage_costs_non_slr p 0 r)).
    { apply (A (RegionalC (Some "damage_costs_non_slr") (c_damage_costs_non_slr p)));
        [in_damage; unfold damage_constraints; rewrite D; unfold coacch_constraints; in_list|].
      apply outs_tr; auto; lia. }
    assert (A2 : cok (c_damage_costs_slr p 0 r)).
    { apply (A (RegionalC (Some "damage_costs_slr") (c_damage_costs_slr p)));
        [in_damage; unfold damage_constraints; rewrite D; unfold coacch_constraints; in_list|].
      apply outs_tr; auto; lia. }
    destruct (R 0%nat) as [Q|Q]; [rewrite Q in A1; discriminate A1|rewrite Q in A2; discriminate A2].
  - intros v F.
    pose proof (q_dm_noslr p v F D 0 r ltac:(lia) Hr) as (e1 & _ & E1 & _).
    pose proof (q_dm_slr p v F D 0 r ltac:(lia) Hr) as (f1 & _ & F1 & _).
    destruct (KF (dmg_noslr p) (EG g_temperature 0 - ENum (6/10))%E) as [Q|K1]; [congruence|].
    destruct (KF (dmg_slr p) (EG g_total_SLR 0)) as [Q|K2]; [congruence|]. destruct K; auto.
Qed.

(** ** C40 *)
Lemma frac_range b e : 0 <= b -> 0 < e -> 0 < / (1 + b * e) <= 1.
Proof.
  intros Hb He. assert (0 <= b * e) by (apply Rmult_le_pos; lra). split.
  - apply Rinv_0_lt_compat. lra.
  - rewrite <- Rinv_1. apply Rinv_le_contravar; lra.
Qed.

Lemma C40_no_damage_without_warming_pf : forall d r, ~ is_logistic d r -> damage_curve d r 0 = 0.
Proof.
  intros d r N. unfold damage_curve, is_logistic in *.
  destruct (str_contains "Linear" (d_form d r)); [field|].
  destruct (str_contains "Quadratic" (d_form d r)); [field|]. tauto.
Qed.

Lemma C40_damages_monotone_pf : forall d r x y, 0 <= d_a d r -> 0 <= d_b1 d r ->
  (str_contains "Linear" (d_form d r) = false -> 0 <= d_b2 d r) -> (is_logistic d r -> 0 <= d_b3 d r) ->
  (is_logistic d r \/ str_contains "Linear" (d_form d r) = true \/ 0 <= x) -> x <= y ->
  damage_curve d r x <= damage_curve d r y.
Proof.
  intros d r x y Ha H1 H2 H3 X L. unfold damage_curve, is_logistic in *.
  destruct (str_contains "Linear" (d_form d r)).
  { assert (d_a d r * d_b1 d r * x <= d_a d r * d_b1 d r * y); [|lra].
    apply Rmult_le_compat_l; auto. apply Rmult_le_pos; auto. }
  specialize (H2 eq_refl).
  destruct (str_contains "Quadratic" (d_form d r)).
  { assert (0 <= x) by (destruct X as [[_ X]|[X|X]]; congruence || auto).
    assert (d_b1 d r * x <= d_b1 d r * y) by (apply Rmult_le_compat_l; auto).
    assert (x ^ 2 <= y ^ 2) by (simpl; nra).
    assert (d_b2 d r * x ^ 2 <= d_b2 d r * y ^ 2) by (apply Rmult_le_compat_l; auto).
    assert (d_a d r * (d_b1 d r * x + d_b2 d r * x ^ 2) <= d_a d r * (d_b1 d r * y + d_b2 d r * y ^ 2)); [|lra].
    apply Rmult_le_compat_l; auto. lra. }
  specialize (H3 (conj eq_refl eq_refl)).
  set (ex := exp _). set (ey := exp (smax _ (- d_b3 d r * y) _)).
  assert (E : ey <= ex).
  { assert (M : smax (1/10) (- d_b3 d r * y) 10 <= smax (1/10) (- d_b3 d r * x) 10).
    { assert (- d_b3 d r * y <= - d_b3 d r * x) as [Q|Q] by nra.
      - left. apply smax_incr; [lra|exact Q].
      - rewrite Q. lra. }
    unfold ex, ey. destruct M as [M|M]; [left; apply exp_increasing; auto|rewrite M; lra]. }
  assert (Px : 0 < ex) by apply exp_pos. assert (Py : 0 < ey) by apply exp_pos.
  assert (d_b2 d r * ey <= d_b2 d r * ex) by (apply Rmult_le_compat_l; auto).
  assert (0 <= d_b2 d r * ey) by (apply Rmult_le_pos; lra).
  assert (/ (1 + d_b2 d r * ex) <= / (1 + d_b2 d r * ey)) by (apply Rinv_le_contravar; lra).
  assert (d_b1 d r * / (1 + d_b2 d r * ex) <= d_b1 d r * / (1 + d_b2 d r * ey)) by (apply Rmult_le_compat_l; auto).
  unfold Rdiv. set (k := d_b1 d r * / (1 + d_b2 d r)) in *.
  assert (d_a d r * (d_b1 d r * / (1 + d_b2 d r * ex) - k) <= d_a d r * (d_b1 d r * / (1 + d_b2 d r * ey) - k)); [|lra].
  apply Rmult_le_compat_l; auto. lra.
Qed.

Lemma C40_logistic_bounded_pf : forall d r x, is_logistic d r -> 0 <= d_b2 d r ->
  Rabs (damage_curve d r x) <= Rabs (d_a d r * d_b1 d r) / 100.
Proof.
  intros d r x [L Q] H2. unfold damage_curve. rewrite L, Q.
  set (e := exp _). assert (He : 0 < e) by apply exp_pos.
  pose proof (frac_range _ _ H2 He) as A. pose proof (frac_range _ 1 H2 ltac:(lra)) as B. rewrite Rmult_1_r in B.
  replace (d_a d r * (d_b1 d r / (1 + d_b2 d r * e) - d_b1 d r / (1 + d_b2 d r)) / 100)
    with (d_a d r * d_b1 d r * ((/ (1 + d_b2 d r * e) - / (1 + d_b2 d r)) / 100)) by (unfold Rdiv; ring).
  rewrite Rabs_mult.
  assert (Rabs ((/ (1 + d_b2 d r * e) - / (1 + d_b2 d r)) / 100) <= /100).
  { apply Rabs_le. lra. }
  unfold Rdiv at 2. apply Rmult_le_compat_l; [apply Rabs_pos|auto].
Qed.

(** The logistic form does not vanish at zero (the cap of the exponent acts everywhere), but almost. *)
Lemma C40_logistic_not_zero_at_zero_refuted_pf : forall d r, is_logistic d r -> 0 <= d_b2 d r ->
  Rabs (damage_curve d r 0) <= Rabs (d_a d r * d_b1 d r) / 100 * (1 / (250 * PI)) /\
  (d_a d r <> 0 -> d_b1 d r <> 0 -> 0 < d_b2 d r -> damage_curve d r 0 <> 0).
Proof.
  intros d r [L Q] H2. unfold damage_curve. rewrite L, Q. rewrite Rmult_0_r.
  pose proof (smax_gap (1/10) ltac:(lra) 0 10) as G. rewrite Rmin_left in G by lra.
  replace (25 / (1/10) * PI) with (250 * PI) in G by field.
  set (z := smax _ _ _) in *. set (e := exp z).
  assert (He : 0 < e) by apply exp_pos.
  assert (E1 : e < 1) by (unfold e; rewrite <- exp_0; apply exp_increasing; lra).
  assert (E2 : 1 + z <= e) by (unfold e; apply exp_ineq1_le).
  pose proof (frac_range _ _ H2 He) as A. pose proof (frac_range _ 1 H2 ltac:(lra)) as B. rewrite Rmult_1_r in B.
  assert (0 <= d_b2 d r * e) by (apply Rmult_le_pos; lra).
  assert (X : d_b1 d r / (1 + d_b2 d r * e) - d_b1 d r / (1 + d_b2 d r)
              = d_b1 d r * (d_b2 d r * / (1 + d_b2 d r) * / (1 + d_b2 d r * e) * (1 - e))) by (field; lra).
  rewrite X. set (k := d_b2 d r * / (1 + d_b2 d r) * / (1 + d_b2 d r * e)).
  assert (K0 : d_b2 d r * / (1 + d_b2 d r) <= 1).
  { apply Rmult_le_reg_r with (1 + d_b2 d r); [lra|]. rewrite Rmult_assoc, Rinv_l by lra. lra. }
  assert (K1 : 0 <= d_b2 d r * / (1 + d_b2 d r)) by (apply Rmult_le_pos; lra).
  assert (K : 0 <= k <= 1) by (unfold k; split; [apply Rmult_le_pos; lra|]; nra).
  split.
  - replace (d_a d r * (d_b1 d r * (k * (1 - e))) / 100) with (d_a d r * d_b1 d r * (k * (1 - e) / 100)) by field.
    rewrite Rabs_mult. unfold Rdiv at 2. rewrite Rmult_assoc. apply Rmult_le_compat_l; [apply Rabs_pos|].
    rewrite Rabs_pos_eq by (assert (0 <= k * (1 - e)) by (apply Rmult_le_pos; lra); lra).
    assert (k * (1 - e) <= 1 * (1 - e)) by (apply Rmult_le_compat_r; lra). lra.
  - intros Na Nb P.
    assert (0 < k) by (unfold k; apply Rmult_lt_0_compat; [apply Rmult_lt_0_compat|]; lra).
    assert (0 < k * (1 - e)) by (apply Rmult_lt_0_compat; lra).
    intros C. assert (C' : d_a d r * d_b1 d r * (k * (1 - e)) = 0) by lra.
    apply Rmult_integral in C'. destruct C' as [C'|C']; [|lra]. apply Rmult_integral in C'. tauto.
Qed.

Lemma C40_no_negative_damages_pf : forall p v t r, feasible p v -> dmg_module p = COACCH -> model_step p t -> In r (regions p) ->
  0 <= damage_scale_factor p ->
  (forall d, d = dmg_noslr p \/ d = dmg_slr p -> 0 <= d_a d r /\ 0 <= d_b1 d r /\ 0 <= d_b2 d r /\ 0 <= d_b3 d r) ->
  6/10 <= T0 p -> 0 <= TCRE p -> total_SLR v 0 <= total_SLR v t ->
  0 <= temperature_damages v t r /\ 0 <= sealevel_damages v t r /\ 0 <= damage_costs v t r.
Proof.
  intros p v t r F D Ht Hr S P T C L.
  destruct (C39_damages_follow_curve_pf p v t r F D Ht Hr) as (A & B & Q & _).
  assert (T0 p <= temperature v t).
  { unfold temperature. rewrite (q_temp p v F t Ht). pose proof (q_cum_nonneg p v F t Ht). nra. }
  assert (M : forall d x y, d = dmg_noslr p \/ d = dmg_slr p -> 0 <= x -> x <= y -> damage_curve d r x <= damage_curve d r y).
  { intros d x y Hd X Y. destruct (P d Hd) as (P1 & P2 & P3 & P4). apply C40_damages_monotone_pf; auto. }
  pose proof (M (dmg_noslr p) (T0 p - 6/10) (temperature v t - 6/10) (or_introl eq_refl) ltac:(lra) ltac:(lra)).
  assert (0 <= total_SLR v 0) by (apply (q_bounds p v F 0); lia).
  pose proof (M (dmg_slr p) _ _ (or_intror eq_refl) H1 L).
  assert (0 <= temperature_damages v t r) by (rewrite B; apply Rmult_le_pos; lra).
  assert (0 <= sealevel_damages v t r) by (rewrite Q; apply Rmult_le_pos; lra).
  repeat split; auto. rewrite A. lra.
Qed.

Lemma C40_sealevel_damages_bounded_pf : forall p v t r, feasible p v -> dmg_module p = COACCH -> model_step p t ->
  In r (regions p) -> -5/10 <= sealevel_damages v t r <= 7/10.
Proof.
  intros p v t r F D Ht Hr. destruct (q_bounds_r p v F t r Ht Hr) as (_ & _ & B & _). exact (B D).
Qed.

(** ** C41 *)
Lemma C41_sealevel_recursion_pf : forall p v, feasible p v ->
  (thermal_SLR v 0 = 920666936642/10000000000000 + 24076141150722/1000000000000000 * (T0 p / 2 - 920666936642/10000000000000) /\
   glacier_SLR v 0 = 15/1000 /\ icesheet_SLR v 0 = 6/1000) /\
  (forall t, model_step p t -> total_SLR v t = thermal_SLR v t + glacier_SLR v t + icesheet_SLR v t /\
     0 <= thermal_SLR v t /\ 0 <= glacier_SLR v t /\ 0 <= icesheet_SLR v t) /\
  (forall t, model_step p (S t) ->
     thermal_SLR v (S t) = exp (dt p / 10 * ln (1 - 24076141150722/1000000000000000)) * thermal_SLR v t
                           + 24076141150722/1000000000000000 * (dt p / 10) * (temperature v t / 2) /\
     glacier_SLR v (S t) = glacier_SLR v t + 8/10000 * dt p * (1 - glacier_SLR v t / (26/100)) * (temperature v t + 1) /\
     icesheet_SLR v (S t) = icesheet_SLR v t
        + dt p / 1000 * (111860082/100000000 * temperature v t + 6/10) * (1 - icesheet_SLR v t / (73/10))).
Proof.
  intros p v F. split; [|split].
  - destruct (q_slr0 p v F) as (A & B & C). unfold thermal_SLR, glacier_SLR, icesheet_SLR.
    rewrite A, B, C. unfold slr_thermal_expansion_init, slr_thermal_init, slr_thermal_adjust_rate, slr_thermal_equil.
    repeat split; lra.
  - intros t Ht. destruct (q_bounds p v F t Ht) as (A & B & C & _). split; [apply (q_slr_total p v F t Ht)|auto].
  - intros t Ht. destruct (q_slr_step p v F t Ht) as (A & B & C).
    unfold thermal_SLR, glacier_SLR, icesheet_SLR, temperature. rewrite A, B, C.
    unfold slr_thermal_adjust_rate, slr_thermal_equil, slr_gsic_melt_rate, slr_gsic_total_ice, slr_gsic_equil_temp,
      slr_gis_melt_rate_above_thresh, slr_gis_init_melt_rate, slr_gis_init_ice_vol.
    split; [|split].
    + unfold pypow. destruct (Rlt_dec 0 (1 - 24076141150722 / 1000000000000000)); [|lra]. unfold Rpower. lra.
    + lra.
    + field.
Qed.

(** Glaciers and ice sheet only lose what they have, and never regrow, as long as the step is not too long
    for the temperature: dt * (T + 1) below 325. *)
Lemma C41_ice_is_limited_pf : forall p v t, feasible p v -> model_step p t -> 0 <= dt p ->
  (forall s, (s < t)%nat -> -1/2 <= temperature v s /\ dt p * (temperature v s + 1) < 325) ->
  15/1000 <= glacier_SLR v t < 26/100 /\ 6/1000 <= icesheet_SLR v t < 73/10 /\
  (forall s, (s < t)%nat -> glacier_SLR v s <= glacier_SLR v (S s) /\ icesheet_SLR v s <= icesheet_SLR v (S s)).
Proof.
  intros p v t F. destruct (C41_sealevel_recursion_pf p v F) as ((_ & G0 & I0) & _ & St).
  induction t as [|t IH]; intros Ht D H.
  - rewrite G0, I0. repeat split; try lra; exfalso; lia.
  - assert (Ht' : model_step p t) by (unfold model_step in *; lia).
    destruct (IH Ht' D (fun s Hs => H s ltac:(lia))) as (A & B & M).
    destruct (St t Ht) as (_ & G & I). destruct (H t ltac:(lia)) as [H1 H2].
    assert (H3 : 0 <= dt p * (temperature v t + 1)) by (apply Rmult_le_pos; lra).
    set (k := 8/10000 * dt p * (temperature v t + 1) / (26/100)).
    assert (K : 0 <= k < 1) by (unfold k; split; lra).
    assert (G' : 26/100 - glacier_SLR v (S t) = (26/100 - glacier_SLR v t) * (1 - k)) by (rewrite G; unfold k; field).
    set (j := dt p / 1000 * (111860082/100000000 * temperature v t + 6/10) / (73/10)).
    assert (J0 : 0 <= dt p * (111860082/100000000 * temperature v t + 6/10)) by (apply Rmult_le_pos; lra).
    assert (J1 : dt p * (111860082/100000000 * temperature v t + 6/10) <= dt p * (2 * (temperature v t + 1)))
      by (apply Rmult_le_compat_l; lra).
    assert (J : 0 <= j < 1) by (unfold j; split; lra).
    assert (I' : 73/10 - icesheet_SLR v (S t) = (73/10 - icesheet_SLR v t) * (1 - j)) by (rewrite I; unfold j; field).
    assert (0 < (26/100 - glacier_SLR v t) * (1 - k)) by (apply Rmult_lt_0_compat; lra).
    assert (0 <= (26/100 - glacier_SLR v t) * k) by (apply Rmult_le_pos; lra).
    assert (0 < (73/10 - icesheet_SLR v t) * (1 - j)) by (apply Rmult_lt_0_compat; lra).
    assert (0 <= (73/10 - icesheet_SLR v t) * j) by (apply Rmult_le_pos; lra).
    split; [lra|]. split; [lra|].
    intros s Hs. destruct (Nat.eq_dec s t) as [->|]; [lra|]. apply M. lia.
Qed.

(** Beyond that step length the glaciers lose more than their volume. *)
Lemma C41_long_steps_melt_too_much_refuted_pf : forall p v t, feasible p v -> model_step p (S t) ->
  glacier_SLR v t < 26/100 -> 325 < dt p * (temperature v t + 1) -> 26/100 < glacier_SLR v (S t).
Proof.
  intros p v t F Ht A H. destruct (C41_sealevel_recursion_pf p v F) as (_ & _ & St).
  destruct (St t Ht) as (_ & G & _).
  set (k := 8/10000 * dt p * (temperature v t + 1) / (26/100)).
  assert (K : 1 < k) by (unfold k; lra).
  assert (G' : glacier_SLR v (S t) - 26/100 = (26/100 - glacier_SLR v t) * (k - 1)) by (rewrite G; unfold k; field).
  assert (0 < (26/100 - glacier_SLR v t) * (k - 1)) by (apply Rmult_lt_0_compat; lra). lra.
Qed.

Lemma C42_no_damage_mode_pf : forall p v t r, feasible p v -> dmg_module p = nodamage -> model_step p t -> In r (regions p) ->
  damage_costs v t r = 0 /\
  GDP_net v t r = GDP_gross v t r - mitigation_costs v t r - transfer_paid p v t r.
Proof.
  intros p v t r F D Ht Hr. pose proof (q_nodamage p v F t r D Ht Hr) as A. split; [exact A|].
  unfold GDP_net. rewrite (q_GDP_net p v F t r Ht Hr). unfold GDP_gross, mitigation_costs, transfer_paid, financial_transfer in *.
  rewrite ?A. destruct (ignore_damages p), (transfer p); cbn [deno]; rewrite ?A; ring.
Qed.
