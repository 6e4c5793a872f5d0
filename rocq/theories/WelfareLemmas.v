(** C43-C46: welfare, objective, tightening, determinism. *)
From Coq Require Import Lra Lia.
From Coquelicot Require Import Coquelicot.
From Verif Require Import ModelFacts SoftFacts ModelSpec Equations Equations2 PowFacts Transfer WelfareSpec.
Set Bullet Behavior "Strict Subproofs".
Open Scope R_scope.

(** ** utility function *)
Lemma pow_over_incr k c x y : c <> 0 -> 0 < k / c -> 0 < x -> x < y -> Rpower x k / c < Rpower y k / c.
Proof.
  intros Hc Hk Hx Hxy. unfold Rdiv.
  assert (L : ln x < ln y) by (apply ln_increasing; auto).
  destruct (Rtotal_order c 0) as [N|[N|N]]; [|contradiction|].
  - assert (/ c < 0) by (apply Rinv_lt_0_compat; auto).
    assert (k < 0) by (unfold Rdiv in Hk; nra).
    assert (Rpower y k < Rpower x k) by (unfold Rpower; apply exp_increasing; nra). nra.
  - assert (0 < / c) by (apply Rinv_0_lt_compat; auto).
    assert (0 < k) by (unfold Rdiv in Hk; nra).
    assert (Rpower x k < Rpower y k) by (unfold Rpower; apply exp_increasing; nra). nra.
Qed.
Lemma utility_incr eta x y : eta <> 1 -> x < y -> utility_of eta x < utility_of eta y.
Proof.
  intros He H. unfold utility_of.
  assert (Rpower (smin 1 x) (1 - eta) / (1 - eta) < Rpower (smin 1 y) (1 - eta) / (1 - eta)).
  { apply pow_over_incr; try lra. - replace ((1 - eta) / (1 - eta)) with 1 by (field; lra). lra.
    - apply smin_pos; lra. - apply smin_incr; lra. }
  unfold Rdiv in *. lra.
Qed.
Lemma utility_le eta x y : eta <> 1 -> x <= y -> utility_of eta x <= utility_of eta y.
Proof. intros He [H| ->]; [left; apply utility_incr; auto|lra]. Qed.

Definition du (eta x : R) : R := Rpower (smin 1 x) (- eta) * dsmin 1 x.
Lemma smin_is_derive x : is_derive (smin 1) x (dsmin 1 x).
Proof. apply is_derive_Reals, smin_deriv. Qed.
Lemma Rpower_is_derive k x : 0 < x -> is_derive (fun y => Rpower y k) x (k * Rpower x (k - 1)).
Proof. intros H. apply is_derive_Reals. apply derivable_pt_lim_power. exact H. Qed.
Lemma utility_deriv eta x : eta <> 1 -> is_derive (utility_of eta) x (du eta x).
Proof.
  intros He. unfold utility_of.
  pose proof (smin_pos 1 ltac:(lra) x) as P.
  pose proof (is_derive_comp _ _ x _ _ (Rpower_is_derive (1 - eta) _ P) (smin_is_derive x)) as D.
  apply (is_derive_ext (fun y => scal (/ (1 - eta)) (minus (Rpower (smin 1 y) (1 - eta)) 1))).
  { intros y. unfold scal, minus, plus, opp; simpl. unfold mult; simpl. field. lra. }
  evar_last.
  - apply is_derive_scal. apply (is_derive_minus (fun y => Rpower (smin 1 y) (1 - eta)) (fun _ => 1)); [exact D|apply is_derive_const].
  - unfold scal, minus, plus, opp, zero; simpl. unfold mult; simpl. unfold du.
    replace (1 - eta - 1) with (- eta) by ring. change (Hierarchy.zero : R) with 0. field. lra.
Qed.
Definition ddsmin (x : R) : R := 2 * 25 / (PI * (1 + (25 * x) * (25 * x)) ^ 2).
Lemma dsmin_deriv x : is_derive (dsmin 1) x (ddsmin x).
Proof.
  unfold dsmin, ddsmin, sw. assert (0 < 1 + 25 * x * (25 * x)) by nra. pose proof PI_pos.
  assert (E : 25 / 1 = 25) by field.
  auto_derive; rewrite !E.
  - assert (0 < PI * (1 + 25 * x * (25 * x))) by (apply Rmult_lt_0_compat; auto). lra.
  - field. split; lra.
Qed.
Lemma du_deriv eta x : is_derive (du eta) x
  (Rpower (smin 1 x) (- eta - 1) * (smin 1 x * ddsmin x - eta * (dsmin 1 x * dsmin 1 x))).
Proof.
  unfold du. pose proof (smin_pos 1 ltac:(lra) x) as P.
  pose proof (is_derive_comp _ _ x _ _ (Rpower_is_derive (- eta) _ P) (smin_is_derive x)) as D.
  pose proof (is_derive_mult _ _ x _ _ D (dsmin_deriv x) Rmult_comm) as M.
  apply (is_derive_ext (fun y => mult (Rpower (smin 1 y) (- eta)) (dsmin 1 y))); [reflexivity|].
  evar_last; [exact M|].
  unfold scal, plus, mult; simpl. unfold mult; simpl.
  assert (E : Rpower (smin 1 x) (- eta) = smin 1 x * Rpower (smin 1 x) (- eta - 1)).
  { rewrite <- (Rpower_1 (smin 1 x)) at 2 by auto. rewrite <- Rpower_plus. f_equal. ring. }
  rewrite E. ring.
Qed.
Lemma PI_gt3 : 3 < PI. Proof. pose proof PI2_3_2. lra. Qed.
Lemma dsmin_big x : 1/10 <= x -> 98/100 <= dsmin 1 x.
Proof.
  intros Hx. unfold dsmin, sw. replace (25 / 1) with 25 by field. set (u := 25 * x).
  assert (Hu : 5/2 <= u) by (unfold u; lra).
  assert (Hi : 0 < / u) by (apply Rinv_0_lt_compat; lra).
  pose proof (atan_lt_id _ Hi) as A. rewrite atan_inv in A by lra.
  pose proof PI_gt3.
  assert (N : 0 < 1 + u * u) by nra.
  assert (K : 98/100 * PI <= PI / 2 + atan u + u / (1 + u * u)).
  { assert (/ u - u / (1 + u * u) <= 1/18); [|lra].
    replace (/ u - u / (1 + u * u)) with (/ (u * (1 + u * u))) by (field; lra).
    replace (1/18) with (/ 18) by field. apply Rinv_le_contravar; [lra|]. nra. }
  apply Rmult_le_reg_r with PI; [lra|].
  replace ((atan u / PI + 1/2 + u / (PI * (1 + u * u))) * PI) with (PI / 2 + atan u + u / (1 + u * u)); [lra|].
  field. lra.
Qed.
Lemma curvature eta x : 1/10 <= eta -> 1/10 <= x -> smin 1 x * ddsmin x - eta * (dsmin 1 x * dsmin 1 x) < 0.
Proof.
  intros He Hx. pose proof (dsmin_big x Hx) as D. pose proof PI_gt3 as P.
  pose proof (smin_gap 1 ltac:(lra) x) as G. rewrite Rmax_left in G by lra.
  assert (I : 1 / (25 / 1 * PI) <= 1/75).
  { unfold Rdiv. rewrite !Rmult_1_l. apply Rinv_le_contravar; lra. }
  unfold ddsmin. set (u := 25 * x) in *. assert (Hu : 5/2 <= u) by (unfold u; lra).
  assert (S : smin 1 x <= (3 * u + 1) / 75) by (unfold u; lra).
  set (q := (1 + u * u) ^ 2). assert (Q : 0 < q) by (unfold q; simpl; nra).
  assert (E : 2 * 25 / (PI * q) <= 50 / (3 * q)).
  { unfold Rdiv. replace (2 * 25) with 50 by lra. apply Rmult_le_compat_l; [lra|].
    apply Rinv_le_contravar; nra. }
  assert (E0 : 0 <= 2 * 25 / (PI * q)) by (apply Rlt_le, Rdiv_lt_0_compat; [lra|apply Rmult_lt_0_compat; lra]).
  assert (M : smin 1 x * (2 * 25 / (PI * q)) <= (3 * u + 1) / 75 * (50 / (3 * q))).
  { pose proof (smin_pos 1 ltac:(lra) x). apply Rmult_le_compat; lra. }
  assert (B : (3 * u + 1) / 75 * (50 / (3 * q)) < 9/100).
  { apply Rmult_lt_reg_r with q; auto. replace ((3 * u + 1) / 75 * (50 / (3 * q)) * q) with ((3 * u + 1) * (2/9)) by (field; lra).
    assert (W : 29/4 <= 1 + u * u) by nra.
    assert (Q2 : q >= (29/4) * (1 + u * u)) by (unfold q; simpl; rewrite Rmult_1_r; apply Rle_ge, Rmult_le_compat_r; lra).
    assert (u * u >= 5/2 * u) by nra. lra. }
  assert (9/100 <= eta * (dsmin 1 x * dsmin 1 x)); [|lra].
  assert (96/100 <= dsmin 1 x * dsmin 1 x) by nra. nra.
Qed.
Lemma du_decr eta x y : 1/10 <= eta -> 1/10 <= x -> x < y -> du eta y < du eta x.
Proof.
  intros He Hx H.
  destruct (MVT_cor2 (du eta) (fun x => Rpower (smin 1 x) (- eta - 1) * (smin 1 x * ddsmin x - eta * (dsmin 1 x * dsmin 1 x))) x y H) as [c [E Hc]].
  { intros. apply is_derive_Reals, du_deriv. }
  pose proof (curvature eta c He ltac:(lra)).
  assert (0 < Rpower (smin 1 c) (- eta - 1)) by (unfold Rpower; apply exp_pos).
  set (a := Rpower _ _) in *. set (b := smin 1 c * _ - _) in *.
  assert (a * b < 0) by nra. nra.
Qed.
Lemma utility_tangent eta x y : 1/10 <= eta -> eta <> 1 -> 1/10 <= x -> 1/10 <= y ->
  utility_of eta y <= utility_of eta x + du eta x * (y - x).
Proof.
  intros He Hn Hx Hy. destruct (Rtotal_order x y) as [H|[->|H]]; [| lra |].
  - destruct (MVT_cor2 (utility_of eta) (du eta) x y H) as [c [E Hc]].
    { intros. apply is_derive_Reals, utility_deriv; auto. }
    pose proof (du_decr eta x c He Hx ltac:(lra)). nra.
  - destruct (MVT_cor2 (utility_of eta) (du eta) y x H) as [c [E Hc]].
    { intros. apply is_derive_Reals, utility_deriv; auto. }
    pose proof (du_decr eta c x He ltac:(lra) ltac:(lra)). nra.
Qed.

(** ** C43 *)
Section Feas.
  Variables (p : pars) (v : point) (t : nat).
  Hypothesis F : feasible p v.
  Hypothesis Ht : model_step p t.
  Lemma wlm_welfare : welfare p = welfare_loss_minimising -> (forall r, In r (regions p) -> 0 < population p t r) ->
    (regions p <> [] -> elasmu p <> 1) /\
    yearly_welfare v t = total p (fun r => population p t r * utility_of (elasmu p) (per_capita p v t r)).
  Proof.
    intros W P. destruct (q_wlm p v F t W Ht) as [U E]. split.
    - intros N. destruct (regions p) as [|r l] eqn:R; [contradiction|]. destruct (U r (or_introl eq_refl)) as (_ & Q & _). lra.
    - unfold yearly_welfare. rewrite E. apply Rsum_ext. intros r Hr. destruct (U r Hr) as [-> _].
      rewrite pypow_pos by (apply smin_pos; lra). reflexivity.
  Qed.
  Lemma cm_welfare : welfare p = cost_minimising ->
    elasmu p <> 1 /\
    yearly_welfare v t = total p (population p t) * utility_of (elasmu p) (global_per_capita p v t).
  Proof.
    intros W. destruct (q_cm p v F t W Ht) as [_ [E [N _]]]. split; [lra|].
    unfold yearly_welfare. rewrite E. rewrite pypow_pos by (apply smin_pos; lra). reflexivity.
  Qed.
  Lemma iag_welfare : welfare p = inequal_aversion_general ->
    elasmu p <> 1 /\ inequal_aversion p <> 1 /\
    yearly_welfare v t = total p (population p t) *
      (Rpower (smin 1 (total p (fun r => population p t r * Rpower (smin 1 (per_capita p v t r)) (1 - inequal_aversion p))
                       / total p (population p t))) ((1 - elasmu p) / (1 - inequal_aversion p)) / (1 - elasmu p)).
  Proof.
    intros W. destruct (q_iag p v F t W Ht) as [U [E [N [M _]]]]. split; [lra|]. split; [lra|].
    unfold yearly_welfare. rewrite E. rewrite pypow_pos by (apply smin_pos; lra).
    unfold total. rewrite (Rsum_ext (rval v v_utility t) (fun r => population p t r * Rpower (smin 1 (per_capita p v t r)) (1 - inequal_aversion p))); [reflexivity|].
    intros r Hr. rewrite (U r Hr), pypow_pos by (apply smin_pos; lra). reflexivity.
  Qed.
End Feas.

Lemma per_capita_le p v w t r : 0 < population p t r -> consumption v t r <= consumption w t r -> per_capita p v t r <= per_capita p w t r.
Proof. intros P H. unfold per_capita, Rdiv. apply Rmult_le_compat_r; auto. apply Rlt_le, Rinv_0_lt_compat; auto. Qed.
Lemma per_capita_lt p v w t r : 0 < population p t r -> consumption v t r < consumption w t r -> per_capita p v t r < per_capita p w t r.
Proof. intros P H. unfold per_capita, Rdiv. apply Rmult_lt_compat_r; auto. apply Rinv_0_lt_compat; auto. Qed.

(** With every welfare module: more consumption in one region and no less elsewhere is more welfare. *)
Lemma C43_welfare_monotone_pf : forall p v w t r0, feasible p v -> feasible p w -> model_step p t ->
  (forall r, In r (regions p) -> 0 < population p t r) ->
  (forall r, In r (regions p) -> consumption v t r <= consumption w t r) ->
  In r0 (regions p) -> consumption v t r0 < consumption w t r0 ->
  yearly_welfare v t < yearly_welfare w t.
Proof.
  intros p v w t r0 F F' Ht P L H0 L0.
  assert (NE : regions p <> []) by (intros E; rewrite E in H0; destruct H0).
  assert (PT : 0 < total p (population p t)) by (apply Rsum_pos; auto).
  destruct (welfare p) eqn:W.
  - destruct (wlm_welfare p v t F Ht W P) as [N ->]. destruct (wlm_welfare p w t F' Ht W P) as [_ ->].
    specialize (N NE). apply Rsum_lt with r0; auto.
    + intros r Hr. apply Rmult_le_compat_l; [specialize (P r Hr); lra|]. apply utility_le; auto. apply per_capita_le; auto.
    + apply Rmult_lt_compat_l; auto. apply utility_incr; auto. apply per_capita_lt; auto.
  - destruct (cm_welfare p v t F Ht W) as [N ->]. destruct (cm_welfare p w t F' Ht W) as [_ ->].
    apply Rmult_lt_compat_l; auto. apply utility_incr; auto. unfold global_per_capita, Rdiv.
    apply Rmult_lt_compat_r; [apply Rinv_0_lt_compat; auto|]. apply Rsum_lt with r0; auto.
  - destruct (iag_welfare p v t F Ht W) as [N [M ->]]. destruct (iag_welfare p w t F' Ht W) as [_ [_ ->]].
    apply Rmult_lt_compat_l; auto.
    set (e := inequal_aversion p) in *. set (h := elasmu p) in *.
    set (Sv := total p (fun r => population p t r * Rpower (smin 1 (per_capita p v t r)) (1 - e))).
    set (Sw := total p (fun r => population p t r * Rpower (smin 1 (per_capita p w t r)) (1 - e))).
    assert (I0 : 0 < / total p (population p t)) by (apply Rinv_0_lt_compat; auto).
    assert (Pc : forall r, In r (regions p) -> smin 1 (per_capita p v t r) <= smin 1 (per_capita p w t r)).
    { intros r Hr. apply smin_le; [lra|]. apply per_capita_le; auto. }
    assert (Pl : smin 1 (per_capita p v t r0) < smin 1 (per_capita p w t r0)) by (apply smin_incr; [lra|apply per_capita_lt; auto]).
    destruct (Rtotal_order e 1) as [Q|[Q|Q]]; [|contradiction|].
    + assert (Sv < Sw).
      { apply Rsum_lt with r0; auto.
        - intros r Hr. apply Rmult_le_compat_l; [specialize (P r Hr); lra|]. apply Rpower_le_base; [lra|apply smin_pos; lra|auto].
        - apply Rmult_lt_compat_l; auto. apply Rpower_lt_base; [lra|apply smin_pos; lra|auto]. }
      apply pow_over_incr; [lra| |apply smin_pos; lra|].
      * replace ((1 - h) / (1 - e) / (1 - h)) with (/ (1 - e)) by (field; lra). apply Rinv_0_lt_compat; lra.
      * apply smin_incr; [lra|]. unfold Rdiv. apply Rmult_lt_compat_r; auto.
    + assert (Sw < Sv).
      { apply Rsum_lt with r0; auto.
        - intros r Hr. apply Rmult_le_compat_l; [specialize (P r Hr); lra|]. apply Rpower_anti_base; [lra|apply smin_pos; lra|auto].
        - apply Rmult_lt_compat_l; auto. unfold Rpower. apply exp_increasing.
          assert (ln (smin 1 (per_capita p v t r0)) < ln (smin 1 (per_capita p w t r0))) by (apply ln_increasing; auto; apply smin_pos; lra). nra. }
      set (a := smin 1 (Sv / total p (population p t))). set (b := smin 1 (Sw / total p (population p t))).
      assert (AB : b < a) by (apply smin_incr; [lra|]; unfold Rdiv; apply Rmult_lt_compat_r; auto).
      assert (B0 : 0 < b) by (apply smin_pos; lra).
      assert (X : Rpower b ((1 - h) / (1 - e)) / (- (1 - h)) < Rpower a ((1 - h) / (1 - e)) / (- (1 - h))).
      { apply pow_over_incr; auto; [lra|]. replace ((1 - h) / (1 - e) / - (1 - h)) with (/ (e - 1)) by (field; lra).
        apply Rinv_0_lt_compat; lra. }
      assert (Y : forall z, z / - (1 - h) = - (z / (1 - h))) by (intros; field; lra).
      rewrite !Y in X. lra.
Qed.

(** Utility is concave in consumption per capita from 0.1 (thousand dollars) upwards, for every accepted
    elasticity (at least 0.1). *)
Lemma C43_utility_concave_pf : forall eta x y l, 1/10 <= eta -> eta <> 1 -> 1/10 <= x -> 1/10 <= y -> 0 <= l <= 1 ->
  l * utility_of eta x + (1 - l) * utility_of eta y <= utility_of eta (l * x + (1 - l) * y).
Proof.
  intros eta x y l He Hn Hx Hy Hl. set (z := l * x + (1 - l) * y).
  assert (Hz : 1/10 <= z) by (unfold z; nra).
  pose proof (utility_tangent eta z x He Hn Hz Hx). pose proof (utility_tangent eta z y He Hn Hz Hy).
  assert (l * utility_of eta x <= l * (utility_of eta z + du eta z * (x - z))) by (apply Rmult_le_compat_l; lra).
  assert ((1 - l) * utility_of eta y <= (1 - l) * (utility_of eta z + du eta z * (y - z))) by (apply Rmult_le_compat_l; lra).
  assert (l * (x - z) + (1 - l) * (y - z) = 0) by (unfold z; ring).
  replace (l * (utility_of eta z + du eta z * (x - z))) with (l * utility_of eta z + du eta z * (l * (x - z))) in H1 by ring.
  replace ((1 - l) * (utility_of eta z + du eta z * (y - z))) with ((1 - l) * utility_of eta z + du eta z * ((1 - l) * (y - z))) in H2 by ring.
  assert (du eta z * (l * (x - z)) + du eta z * ((1 - l) * (y - z)) = 0) by (rewrite <- Rmult_plus_distr_l, H3; ring).
  lra.
Qed.

Lemma C43_utility_values_pf : forall p v t, feasible p v -> model_step p t ->
  (forall r, In r (regions p) -> 0 < population p t r) ->
  (welfare p = welfare_loss_minimising ->
     yearly_welfare v t = total p (fun r => population p t r * utility_of (elasmu p) (per_capita p v t r))) /\
  (welfare p = cost_minimising ->
     yearly_welfare v t = total p (population p t) * utility_of (elasmu p) (global_per_capita p v t)).
Proof.
  intros p v t F Ht P. split; intros W; [apply (wlm_welfare p v t F Ht W P)|apply (cm_welfare p v t F Ht W)].
Qed.

(** Cost-minimising welfare depends on global consumption only: redistribution is neutral. *)
Lemma C43_cost_minimising_ignores_distribution_pf : forall p v w t, feasible p v -> feasible p w -> model_step p t ->
  welfare p = cost_minimising -> total p (consumption v t) = total p (consumption w t) ->
  yearly_welfare v t = yearly_welfare w t.
Proof.
  intros p v w t F F' Ht W E. destruct (cm_welfare p v t F Ht W) as [_ ->]. destruct (cm_welfare p w t F' Ht W) as [_ ->].
  unfold global_per_capita. rewrite E. reflexivity.
Qed.

(** Inequality costs welfare: for the same total, equal consumption per capita is best. *)
Lemma C43_equal_distribution_is_best_pf : forall p v t, feasible p v -> model_step p t -> regions p <> [] ->
  welfare p = welfare_loss_minimising -> (forall r, In r (regions p) -> 0 < population p t r) ->
  1/10 <= elasmu p -> (forall r, In r (regions p) -> 1/10 <= per_capita p v t r) ->
  yearly_welfare v t <= total p (population p t) * utility_of (elasmu p) (global_per_capita p v t).
Proof.
  intros p v t F Ht NE W P He C. destruct (wlm_welfare p v t F Ht W P) as [N ->]. specialize (N NE).
  assert (PT : 0 < total p (population p t)) by (apply Rsum_pos; auto).
  set (m := global_per_capita p v t).
  assert (Cs : forall r, In r (regions p) -> consumption v t r = population p t r * per_capita p v t r).
  { intros r Hr. unfold per_capita. field. specialize (P r Hr). lra. }
  assert (Hm : 1/10 <= m).
  { unfold m, global_per_capita. apply Rmult_le_reg_r with (total p (population p t)); auto.
    replace (total p (consumption v t) / total p (population p t) * total p (population p t)) with (total p (consumption v t)) by (field; lra).
    unfold total. rewrite <- Rsum_scal. apply Rsum_le. intros r Hr. rewrite Cs by auto.
    rewrite (Rmult_comm (1/10)). apply Rmult_le_compat_l; [specialize (P r Hr); lra|]. exact (C r Hr). }
  apply Rle_trans with (total p (fun r => utility_of (elasmu p) m * population p t r
                                          + (du (elasmu p) m * consumption v t r - du (elasmu p) m * m * population p t r))).
  - apply Rsum_le. intros r Hr. rewrite Cs by auto.
    pose proof (utility_tangent (elasmu p) m (per_capita p v t r) He N Hm (C r Hr)) as T.
    apply Rmult_le_compat_l with (r := population p t r) in T; [|specialize (P r Hr); lra]. lra.
  - unfold total. rewrite Rsum_plus, Rsum_minus, !Rsum_scal.
    assert (Rsum (consumption v t) (regions p) = m * Rsum (population p t) (regions p)).
    { unfold m, global_per_capita, total. field. unfold total in PT. lra. }
    rewrite H. lra.
Qed.

(** Near zero consumption utility is not concave for small accepted elasticities (the smooth minimum is convex). *)
Lemma PI_lt_3_5 : PI < 7/2.
Proof.
  destruct (PI_ineq 1) as [_ H]. simpl in H. unfold tg_alt, PI_tg in H. simpl in H. lra.
Qed.
Lemma smin_scaled x : smin 1 x = (1 + 25 * x * (atan (25 * x) + PI / 2)) / (25 * PI).
Proof. unfold smin, sw. replace (25 / 1) with 25 by field. field. apply PI_neq. Qed.
Lemma C43_not_concave_near_zero_refuted_pf :
  utility_of (1/2) ((0 + 1/100) / 2) < (utility_of (1/2) 0 + utility_of (1/2) (1/100)) / 2.
Proof.
  unfold utility_of. replace (1 - 1/2) with (/2) by field.
  assert (S : forall x, Rpower (smin 1 x) (/2) = sqrt (smin 1 x)) by (intros; apply Rpower_sqrt; apply smin_pos; lra).
  rewrite !S, !smin_scaled. pose proof PI_gt3 as P3. pose proof PI_lt_3_5 as P4.
  assert (K : 0 < 25 * PI) by lra.
  replace (1 + 25 * 0 * (atan (25 * 0) + PI / 2)) with 1 by ring.
  replace (25 * ((0 + 1 / 100) / 2)) with (1/8) by field. replace (25 * (1/100)) with (1/4) by field.
  set (A := 1 + 1/8 * (atan (1/8) + PI/2)). set (B := 1 + 1/4 * (atan (1/4) + PI/2)).
  assert (HA : A < 1 + 1/64 + PI/16) by (unfold A; pose proof (atan_lt_id (1/8) ltac:(lra)); lra).
  assert (HB : 1 + 1/17 + PI/8 < B).
  { unfold B. pose proof (atan_gt_frac (1/4) ltac:(lra)) as Q.
    replace (1/4 / (1 + 1/4 * (1/4))) with (4/17) in Q by field. lra. }
  assert (A0 : 0 < A) by (unfold A; pose proof (atan_pos (1/8) ltac:(lra)); lra).
  assert (B0 : 0 < B) by lra.
  rewrite !sqrt_div_alt by lra. rewrite sqrt_1.
  assert (I : 0 < / sqrt (25 * PI)) by (apply Rinv_0_lt_compat, sqrt_lt_R0; lra).
  assert (M : 2 * sqrt A < 1 + sqrt B).
  { pose proof (sqrt_lt_R0 A A0). pose proof (sqrt_lt_R0 B B0).
    pose proof (sqrt_sqrt A ltac:(lra)). pose proof (sqrt_sqrt B ltac:(lra)).
    set (a := sqrt A) in *. set (b := sqrt B) in *.
    destruct (Rlt_le_dec (2 * a) (1 + b)) as [|N]; auto. exfalso.
    assert (Q : (1 + b) * (1 + b) <= 4 * A) by nra.
    set (c := 1 + PI/16 + 1/500).
    assert (C : c * c <= B) by (unfold c; nra).
    assert (c <= b) by (unfold c in *; nra).
    assert (4 * A < (1 + c) * (1 + c)) by (unfold c; nra). unfold c in *; nra. }
  clearbody A B. unfold Rdiv. rewrite !Rinv_inv.
  set (k := / sqrt (25 * PI)) in *.
  assert (2 * (sqrt A * k) < 1 * k + sqrt B * k) by nra.
  unfold Rdiv. lra.
Qed.

(** Inequality aversion above one: the second smooth minimum dominates, so welfare stays away from its
    theoretical supremum (zero) however rich every region is. *)
Lemma C43_inequality_aversion_saturates_refuted_pf : forall p v t, feasible p v -> model_step p t ->
  welfare p = inequal_aversion_general -> 1 < inequal_aversion p -> 1 < elasmu p ->
  regions p <> [] -> (forall r, In r (regions p) -> 0 < population p t r) ->
  yearly_welfare v t
  <= - (total p (population p t) * (Rpower (1 / (25 * PI)) ((elasmu p - 1) / (inequal_aversion p - 1)) / (elasmu p - 1))).
Proof.
  intros p v t F Ht W He Hh NE P. destruct (iag_welfare p v t F Ht W) as [_ [_ ->]].
  assert (PT : 0 < total p (population p t)) by (apply Rsum_pos; auto).
  set (e := inequal_aversion p) in *. set (h := elasmu p) in *.
  set (X := total p (fun r => population p t r * Rpower (smin 1 (per_capita p v t r)) (1 - e)) / total p (population p t)).
  assert (HX : 0 <= X).
  { apply Rlt_le, Rdiv_lt_0_compat; auto. apply Rsum_pos; auto. intros r Hr.
    apply Rmult_lt_0_compat; auto. unfold Rpower; apply exp_pos. }
  assert (L : 1 / (25 * PI) <= smin 1 X).
  { pose proof (smin_le 1 ltac:(lra) 0 X HX) as Q. rewrite smin_0 in Q by lra. replace (25/1) with 25 in Q by field. exact Q. }
  replace ((1 - h) / (1 - e)) with ((h - 1) / (e - 1)) by (field; lra).
  set (k := (h - 1) / (e - 1)). assert (K : 0 < k) by (apply Rdiv_lt_0_compat; lra).
  assert (C : 0 < 1 / (25 * PI)) by (apply Rdiv_lt_0_compat; [lra|]; pose proof PI_gt3; lra).
  pose proof (Rpower_le_base _ _ k (Rlt_le _ _ K) C L) as M.
  replace (total p (population p t) * (Rpower (smin 1 X) k / (1 - h)))
    with (- (total p (population p t) * (Rpower (smin 1 X) k / (h - 1)))) by (field; lra).
  apply Ropp_le_contravar. apply Rmult_le_compat_l; [lra|]. unfold Rdiv. apply Rmult_le_compat_r; auto.
  apply Rlt_le, Rinv_0_lt_compat; lra.
Qed.

(** ** C44 *)
Lemma C44_NPV_is_discounted_sum_pf : forall p v t, feasible p v -> model_step p t ->
  NPV v t = discounted p (match objective p with
                          | utility => yearly_welfare v
                          | globalcosts => fun s => total p (mitigation_costs v s)
                                             + total p (fun r => damage_costs v s r * GDP_gross v s r)
                          end) t.
Proof.
  intros p v t F. induction t as [|t IH]; intros Ht.
  - exact (q_NPV0 p v F).
  - unfold discounted in *. cbn [steps_sum]. rewrite <- IH by (unfold model_step in *; lia).
    unfold NPV. rewrite (q_NPV p v F t Ht). destruct (objective p); reflexivity.
Qed.
(** The utility objective prefers more discounted welfare, the global-costs objective lower discounted costs. *)
Lemma C44_objective_direction_pf : forall p v w, feasible p v -> feasible p w ->
  (objective p = utility ->
     (better p v w <-> discounted p (yearly_welfare w) (tf p) <= discounted p (yearly_welfare v) (tf p))) /\
  (objective p = globalcosts ->
     let costs x := fun s => total p (mitigation_costs x s) + total p (fun r => damage_costs x s r * GDP_gross x s r) in
     (better p v w <-> discounted p (costs v) (tf p) <= discounted p (costs w) (tf p))).
Proof.
  intros p v w F F'.
  pose proof (C44_NPV_is_discounted_sum_pf p v (tf p) F (le_n _)) as A.
  pose proof (C44_NPV_is_discounted_sum_pf p w (tf p) F' (le_n _)) as B.
  unfold better, maximise, objective_value, NPV in *. rewrite A, B.
  split; intros ->; tauto.
Qed.
(** More consumption in one year of the horizon and no less in any other: a better solution. *)
Lemma discounted_le p x y t : 0 <= dt p -> (forall s, (1 <= s <= t)%nat -> x s <= y s) -> discounted p x t <= discounted p y t.
Proof.
  intros D H. unfold discounted. induction t as [|t IH]; cbn [steps_sum]; [lra|].
  assert (dt p * exp (- PRTP p * (year p (S t) - beginyear p)) * x (S t) <= dt p * exp (- PRTP p * (year p (S t) - beginyear p)) * y (S t)).
  { apply Rmult_le_compat_l; [apply Rmult_le_pos; [auto|apply Rlt_le, exp_pos]|apply H; lia]. }
  assert (steps_sum (fun s => dt p * exp (- PRTP p * (year p s - beginyear p)) * x s) t <= steps_sum (fun s => dt p * exp (- PRTP p * (year p s - beginyear p)) * y s) t).
  { apply IH. intros; apply H; lia. }
  lra.
Qed.
Lemma discounted_lt p x y t t0 : 0 < dt p -> (forall s, (1 <= s <= t)%nat -> x s <= y s) -> (1 <= t0 <= t)%nat -> x t0 < y t0 ->
  discounted p x t < discounted p y t.
Proof.
  intros D H. induction t as [|t IH]; intros R L; [lia|].
  unfold discounted in *. cbn [steps_sum].
  assert (E : 0 < dt p * exp (- PRTP p * (year p (S t) - beginyear p))) by (apply Rmult_lt_0_compat; [auto|apply exp_pos]).
  destruct (Nat.eq_dec t0 (S t)) as [->|N].
  - pose proof (discounted_le p x y t (Rlt_le _ _ D) (fun s Hs => H s ltac:(lia))) as Q. unfold discounted in Q.
    assert (dt p * exp (- PRTP p * (year p (S t) - beginyear p)) * x (S t) < dt p * exp (- PRTP p * (year p (S t) - beginyear p)) * y (S t)) by (apply Rmult_lt_compat_l; auto).
    lra.
  - assert (Q := IH (fun s Hs => H s ltac:(lia)) ltac:(lia) L).
    assert (dt p * exp (- PRTP p * (year p (S t) - beginyear p)) * x (S t) <= dt p * exp (- PRTP p * (year p (S t) - beginyear p)) * y (S t)) by (apply Rmult_le_compat_l; [lra|apply H; lia]).
    lra.
Qed.
Lemma welfare_same p v w s : feasible p v -> feasible p w -> model_step p s ->
  (forall r, In r (regions p) -> 0 < population p s r) ->
  (forall r, In r (regions p) -> consumption v s r = consumption w s r) -> yearly_welfare v s = yearly_welfare w s.
Proof.
  intros F F' Hs' P E.
  assert (E' : forall r, In r (regions p) -> per_capita p v s r = per_capita p w s r) by (intros; unfold per_capita; rewrite E; auto).
  destruct (welfare p) eqn:W.
  - destruct (wlm_welfare p v s F Hs' W P) as [_ ->]. destruct (wlm_welfare p w s F' Hs' W P) as [_ ->].
    apply Rsum_ext. intros r Hr. rewrite E'; auto.
  - apply C43_cost_minimising_ignores_distribution_pf with p; auto. apply Rsum_ext; auto.
  - destruct (iag_welfare p v s F Hs' W) as [_ [_ ->]]. destruct (iag_welfare p w s F' Hs' W) as [_ [_ ->]].
    unfold total. rewrite (Rsum_ext (fun r => population p s r * Rpower (smin 1 (per_capita p v s r)) (1 - inequal_aversion p))
      (fun r => population p s r * Rpower (smin 1 (per_capita p w s r)) (1 - inequal_aversion p))); [reflexivity|].
    intros r Hr. rewrite E'; auto.
Qed.
Lemma C44_more_consumption_is_better_pf : forall p v w t0 r0, feasible p v -> feasible p w -> objective p = utility -> 0 < dt p ->
  (forall t r, model_step p t -> In r (regions p) -> 0 < population p t r) ->
  (forall t r, (1 <= t <= tf p)%nat -> In r (regions p) -> consumption v t r <= consumption w t r) ->
  (1 <= t0 <= tf p)%nat -> In r0 (regions p) -> consumption v t0 r0 < consumption w t0 r0 ->
  objective_value p v < objective_value p w.
Proof.
  intros p v w t0 r0 F F' O D P L R0 I0 L0.
  pose proof (C44_NPV_is_discounted_sum_pf p v (tf p) F (le_n _)) as A.
  pose proof (C44_NPV_is_discounted_sum_pf p w (tf p) F' (le_n _)) as B.
  unfold objective_value, NPV in *. rewrite A, B, O. apply discounted_lt with t0; auto.
  - intros s Hs.
    assert (Q : forall r, In r (regions p) -> consumption v s r = consumption w s r \/ consumption v s r < consumption w s r).
    { intros r Hr. destruct (L s r Hs Hr); auto. }
    destruct (Classical_Prop.classic (exists r, In r (regions p) /\ consumption v s r < consumption w s r)) as [[r [Hr Lr]]|N].
    + left. apply C43_welfare_monotone_pf with p r; auto; try (unfold model_step; lia); intros; apply P || apply L; auto; unfold model_step; lia.
    + assert (E : forall r, In r (regions p) -> consumption v s r = consumption w s r).
      { intros r Hr. destruct (Q r Hr); auto. exfalso. eauto. }
      assert (Hs' : model_step p s) by (unfold model_step; lia).
      right. apply welfare_same with p; auto.
  - apply C43_welfare_monotone_pf with p r0; auto; try (unfold model_step; lia); intros; apply P || apply L; auto; unfold model_step; lia.
Qed.
