(** C72: in between two feasible plans of least cost there is a third. *)
From Coq Require Import Reals List String Lra Lia.
From Verif Require Import ModelFacts SoftFacts ModelSpec PowFacts Equations Equations2 Build VarFacts EconLemmas BuildFacts BuildLemmas DefinedFacts
  SolveFacts ClimateSpec ClimateLemmas WelfareSpec WelfareLemmas MitigationLemmas TradeLemmas PolicySpec PolicyLemmas Simulate SimFacts ExistSpec ExistFacts ExistLemmas
  ReallocateSpec Reallocate Exchange HotellingSpec ConvexSpec.
Import ListNotations.
Open Scope R_scope.
Set Bullet Behavior "Strict Subproofs".

(** *** Arithmetic of mixtures *)
Lemma mix_ge l a b x y : 0 <= l <= 1 -> a <= x -> b <= y -> mix l a b <= mix l x y.
Proof. intros H X Y. unfold mix. apply Rplus_le_compat; apply Rmult_le_compat_l; lra. Qed.
Lemma mix_same l x : mix l x x = x.
Proof. unfold mix. ring. Qed.
Lemma mix_above l c x y : 0 <= l <= 1 -> c <= x -> c <= y -> c <= mix l x y.
Proof. intros H X Y. rewrite <- (mix_same l c). apply mix_ge; auto. Qed.
Lemma mix_below l c x y : 0 <= l <= 1 -> x <= c -> y <= c -> mix l x y <= c.
Proof. intros H X Y. rewrite <- (mix_same l c). apply mix_ge; auto. Qed.
Lemma mix_limit_some l a b z : mix_limit l a b = Some z -> exists x y, a = Some x /\ b = Some y /\ z = mix l x y.
Proof. destruct a as [x|], b as [y|]; cbn; intros H; try discriminate H. injection H as <-. eauto. Qed.
Lemma Rsum_mix l f g rs : Rsum (fun q => mix l (f q) (g q)) rs = mix l (Rsum f rs) (Rsum g rs).
Proof. unfold mix. rewrite Rsum_plus, !Rsum_scal. reflexivity. Qed.
Lemma steps_mix l f g t : steps_sum (fun s => mix l (f s) (g s)) t = mix l (steps_sum f t) (steps_sum g t).
Proof. induction t as [|t IH]; cbn [steps_sum]; [unfold mix; ring|]. rewrite IH. unfold mix. ring. Qed.
Lemma discounted_mix p l x y t : discounted p (fun s => mix l (x s) (y s)) t = mix l (discounted p x t) (discounted p y t).
Proof. unfold discounted. rewrite <- steps_mix. apply steps_sum_ext. intros s _. unfold mix. ring. Qed.
Lemma apow_mix b l x y : 0 < b -> 0 <= x -> 0 <= y -> 0 <= l <= 1 -> apow (mix l x y) (b + 1) / (b + 1) <= mix l (apow x (b + 1) / (b + 1)) (apow y (b + 1) / (b + 1)).
Proof.
  intros Hb Hx Hy Hl. pose proof (apow_convex b y x l Hb Hy Hx Hl) as H. unfold mix. rewrite (Rplus_comm ((1 - l) * x)), (Rplus_comm ((1 - l) * _)). exact H.
Qed.
Lemma apow_tangent_lt b x y : 0 < b -> 0 <= x -> 0 <= y -> x <> y -> apow x (b + 1) / (b + 1) + apow x b * (y - x) < apow y (b + 1) / (b + 1).
Proof.
  intros Hb Hx Hy NE. set (z := (x + y) / 2).
  pose proof (apow_tangent b x z Hb Hx ltac:(unfold z; lra)) as A. pose proof (apow_tangent b z y Hb ltac:(unfold z; lra) Hy) as B.
  assert (E1 : z - x = (y - x) / 2) by (unfold z; field). assert (E2 : y - z = (y - x) / 2) by (unfold z; field). rewrite E1 in A. rewrite E2 in B.
  destruct (Rtotal_order x y) as [L|[Q|L]]; [|contradiction|].
  - assert (P : apow x b < apow z b) by (apply apow_lt; unfold z; lra).
    assert (0 < (apow z b - apow x b) * ((y - x) / 2)) by (apply Rmult_lt_0_compat; lra). lra.
  - assert (P : apow z b < apow x b) by (apply apow_lt; unfold z; lra).
    assert (0 < (apow x b - apow z b) * ((x - y) / 2)) by (apply Rmult_lt_0_compat; lra). lra.
Qed.
Lemma apow_mix_lt b l x y : 0 < b -> 0 <= x -> 0 <= y -> 0 < l < 1 -> x <> y -> apow (mix l x y) (b + 1) / (b + 1) < mix l (apow x (b + 1) / (b + 1)) (apow y (b + 1) / (b + 1)).
Proof.
  intros Hb Hx Hy Hl NE. assert (Z : 0 <= mix l x y) by (apply mix_above; lra). set (z := mix l x y) in *.
  assert (Zx : x - z = l * (x - y)) by (unfold z, mix; ring). assert (Zy : y - z = (1 - l) * (y - x)) by (unfold z, mix; ring).
  assert (Nx : z <> x). { intros Q. assert (l * (x - y) = 0) by lra. apply Rmult_integral in H. lra. }
  assert (Ny : z <> y). { intros Q. assert ((1 - l) * (y - x) = 0) by lra. apply Rmult_integral in H. lra. }
  pose proof (apow_tangent_lt b z x Hb Z Hx Nx) as A. pose proof (apow_tangent_lt b z y Hb Z Hy Ny) as B. rewrite Zx in A. rewrite Zy in B.
  set (fz := apow z (b + 1) / (b + 1)) in *. set (d := apow z b) in *. unfold mix.
  apply (Rmult_lt_compat_l (1 - l)) in A; [|lra]. apply (Rmult_lt_compat_l l) in B; [|lra]. lra.
Qed.
Lemma apow_mix_below b l x y c : 0 < b -> 0 <= l <= 1 -> apow x b <= c -> apow y b <= c -> apow (mix l x y) b <= c.
Proof.
  intros Hb Hl X Y. destruct (Rle_dec x y) as [L|L].
  - apply Rle_trans with (2 := Y). apply apow_le; [exact Hb|]. apply mix_below; lra.
  - apply Rle_trans with (2 := X). apply apow_le; [exact Hb|]. apply mix_below; lra.
Qed.
(** Without learning by doing, learning depends on time only. *)
Lemma learn_time p c t : LBD_rate p = 1 -> s_learn p c t = s_lot p t.
Proof.
  intros H. unfold s_learn, s_lbd. assert (E : log_LBD_rate p = 0) by (unfold log_LBD_rate; rewrite H, ln_1; unfold Rdiv; ring).
  rewrite E, pypow_pos, Rpower_O by (apply smin_pos; lra). ring.
Qed.

(** *** Emissions are at most those without abatement, so warming stays moderate. *)
Lemma cum_bound p v E t : feasible p v -> 0 < dt p -> use_carbon_intensity p = false ->
  (forall u r, model_step p u -> In r (regions p) -> 0 <= baseline_emissions p u r) ->
  (forall u, model_step p u -> total p (baseline_emissions p u) <= E) -> model_step p t -> cumulative_emissions v t <= dt p * INR t * E.
Proof.
  intros F HD UC BE HE. assert (GE : forall u, model_step p u -> global_emissions v u <= E).
  { intros u Hu. apply Rle_trans with (2 := HE u Hu). unfold global_emissions, total. rewrite (q_global p v F u Hu). apply Rsum_le. intros r Hr. destruct u as [|u].
    - rewrite (q_emissions0 p v F r Hr). lra.
    - rewrite (q_abatement p v F (S u) r ltac:(unfold model_step in Hu; lia) Hr), (q_baseline p v F (S u) r Hu Hr), UC.
      destruct (q_bounds_r p v F (S u) r Hu Hr) as ((A & _) & _). pose proof (BE (S u) r Hu Hr).
      assert (0 <= rval v v_relative_abatement (S u) r * baseline_emissions p (S u) r) by (apply Rmult_le_pos; auto). lra. }
  induction t as [|t IH]; intros Ht.
  - unfold cumulative_emissions. rewrite (q_cum0 p v F). cbn. lra.
  - assert (M : model_step p t) by (unfold model_step in *; lia). specialize (IH M). unfold cumulative_emissions in *. rewrite (q_cum p v F t Ht), S_INR.
    pose proof (GE (S t) Ht) as G1. pose proof (GE t M) as G2. unfold global_emissions in *.
    apply (Rmult_le_compat_l (dt p)) in G1; [|lra]. apply (Rmult_le_compat_l (dt p)) in G2; [|lra]. destruct (cum_trapz p); lra.
Qed.

(** Sea level under moderate warming *)
Lemma seas_nonneg p c t : 0 < dt p -> 0 <= slr_thermal_expansion_init p -> (forall u, (u < t)%nat -> 0 <= s_temp p c u /\ dt p * (s_temp p c u + 1) <= 325) ->
  0 <= s_th p c t /\ 0 <= s_gs p c t <= 26/100 /\ 0 <= s_gi p c t <= 73/10.
Proof.
  intros HD I0. induction t as [|t IH]; intros H.
  - cbn [s_th s_gs s_gi]. lra.
  - specialize (IH ltac:(intros u Hu; apply H; lia)). destruct IH as (I1 & I2 & I3). destruct (H t ltac:(lia)) as [T1 T2]. cbn [s_th s_gs s_gi].
    set (x := s_temp p c t) in *. set (g := s_gs p c t) in *. set (i := s_gi p c t) in *.
    assert (X : 0 <= dt p * x) by (apply Rmult_le_pos; lra).
    unfold slr_thermal_adjust_rate, slr_thermal_equil, slr_gsic_melt_rate, slr_gsic_total_ice, slr_gsic_equil_temp, slr_gis_melt_rate_above_thresh, slr_gis_init_melt_rate, slr_gis_init_ice_vol.
    split; [|split].
    + apply Rplus_le_le_0_compat; [apply Rmult_le_pos; [rewrite pypow_pos by lra; left; apply exp_pos|exact I1]|]. lra.
    + assert (P : 0 <= dt p * (x + 1) * (26/100 - g)) by (apply Rmult_le_pos; lra).
      assert (P2 : dt p * (x + 1) * (26/100 - g) <= 325 * (26/100 - g)) by (apply Rmult_le_compat_r; lra).
      replace (g + 8/10000 / (26/100) * dt p * (26/100 - g) * (x - -1)) with (g + 8/10000/(26/100) * (dt p * (x + 1) * (26/100 - g))) by ring. lra.
    + set (k := dt p * (111860082/100000000 * x + 6/10)).
      assert (K : 0 <= k <= 7300) by (unfold k; lra).
      assert (P : 0 <= k * (1 - i / (73/10))) by (apply Rmult_le_pos; lra).
      assert (P2 : k * (1 - i / (73/10)) <= 7300 * (1 - i / (73/10))) by (apply Rmult_le_compat_r; lra).
      replace (i + dt p / 10 * (1/100) * (111860082/100000000 * x + 6/10) * (1 - i / (73/10))) with (i + /1000 * (k * (1 - i / (73/10)))) by (unfold k; field). lra.
Qed.

Section Blend.
  Variables (p : pars) (q1 q2 : policy) (l : R) (v w : point).
  Notation p1 := (with_policy q1 p). Notation p2 := (with_policy q2 p). Notation p3 := (with_policy (mix_policy l q1 q2) p).
  Hypotheses (F1 : feasible p1 v) (F2 : feasible p2 w) (L : 0 <= l <= 1) (LC : least_cost_setting p) (NR : numeric_ranges p) (SD : sound_data p)
    (U1 : usable_choices p1) (U2 : usable_choices p2) (Al : 0 <= alpha p < 1) (MG : 0 <= MAC_gamma p) (MS : forall r, In r (regions p) -> 0 <= MAC_scaling p r)
    (BE : forall t r, model_step p t -> In r (regions p) -> 0 <= baseline_emissions p t r) (MW : moderate_warming p).
  Let UC : use_carbon_intensity p = false. Proof. apply LC. Qed.
  Definition between (t : nat) (r : region) : R := match t with O => 0 | S _ => mix l (relative_abatement v t r) (relative_abatement w t r) end.
  Definition cum_between (t : nat) : R := mix l (cumulative_emissions v t) (cumulative_emissions w t).
  Notation z := (sim p3 between cum_between (fun _ => 0)).

  Lemma b_usable : usable_choices p3.
  Proof.
    destruct U1 as (A1 & A2 & A3 & A4 & A5 & A6 & A7 & A8). destruct U2 as (_ & _ & B3 & B4 & _).
    split; [exact A1|]. split; [exact A2|]. split.
    { intros N Y. apply A3; [|exact Y]. cbn in N |- *. destruct (pol_budget q1); [discriminate|exact N]. }
    split. { intros N. apply A4. cbn in N |- *. apply andb_prop in N. apply N. }
    split; [exact A5|]. split; [exact A6|]. split; [exact A7|exact A8].
  Qed.
  Lemma b_em_of q x t r : feasible (with_policy q p) x -> (1 <= t <= tf p)%nat -> In r (regions p) ->
    regional_emissions x t r = (1 - relative_abatement x t r) * baseline_emissions p t r.
  Proof.
    intros F Ht Hr. unfold regional_emissions, relative_abatement.
    rewrite (q_abatement (with_policy q p) x F t r ltac:(cbn; lia) Hr), (q_baseline (with_policy q p) x F t r ltac:(cbn; lia) Hr). cbn [use_carbon_intensity with_policy]. rewrite UC. reflexivity.
  Qed.
  Lemma b_em t r : model_step p t -> In r (regions p) -> s_em p3 between cum_between t r = mix l (regional_emissions v t r) (regional_emissions w t r).
  Proof.
    intros Ht Hr. unfold s_em. destruct t as [|t].
    - unfold regional_emissions. rewrite (q_emissions0 p1 v F1 r Hr), (q_emissions0 p2 w F2 r Hr). cbn. rewrite mix_same. reflexivity.
    - assert (Ht' : (1 <= S t <= tf p)%nat) by (unfold model_step in Ht; lia).
      rewrite (b_em_of q1 v _ r F1 Ht' Hr), (b_em_of q2 w _ r F2 Ht' Hr). unfold s_base. cbn [use_carbon_intensity with_policy baseline_emissions]. rewrite UC. cbn [between]. unfold mix. ring.
  Qed.
  Lemma b_ge t : model_step p t -> s_ge p3 between cum_between t = mix l (global_emissions v t) (global_emissions w t).
  Proof.
    intros Ht. unfold s_ge, global_emissions. rewrite (q_global p1 v F1 t Ht), (q_global p2 w F2 t Ht). cbn [regions with_policy]. rewrite <- Rsum_mix.
    apply Rsum_ext. intros r Hr. apply b_em; auto.
  Qed.
  Lemma b_cum0 : cum_between 0 = 0.
  Proof. unfold cum_between, cumulative_emissions. rewrite (q_cum0 p1 v F1), (q_cum0 p2 w F2). unfold mix. ring. Qed.
  Lemma b_cum_step t : (S t <= tf p)%nat -> cum_between (S t) = cum_between t +
    (if cum_trapz p then dt p * (s_ge p3 between cum_between (S t) + s_ge p3 between cum_between t) / 2 else dt p * s_ge p3 between cum_between (S t)).
  Proof.
    intros Ht. rewrite !b_ge by (unfold model_step; lia). unfold cum_between, cumulative_emissions, global_emissions.
    rewrite (q_cum p1 v F1 t Ht), (q_cum p2 w F2 t Ht). cbn [cum_trapz dt with_policy]. unfold mix. destruct (cum_trapz p); lra.
  Qed.
  Lemma b_temp_ok t : model_step p t -> 0 <= s_temp p3 cum_between t /\ dt p * (s_temp p3 cum_between t + 1) <= 325.
  Proof.
    intros Ht. destruct MW as (M0 & M1 & E & ME & MB). assert (HD : 0 < dt p) by apply NR.
    pose proof (cum_bound p1 v E t F1 HD UC BE ME Ht) as C1. pose proof (cum_bound p2 w E t F2 HD UC BE ME Ht) as C2. cbn [dt with_policy] in C1, C2.
    pose proof (q_cum_nonneg p1 v F1 t Ht) as N1. pose proof (q_cum_nonneg p2 w F2 t Ht) as N2.
    assert (C : 0 <= cum_between t <= dt p * INR t * E) by (unfold cum_between; split; [apply mix_above|apply mix_below]; assumption).
    assert (TT : INR t <= INR (tf p)) by (apply le_INR; exact Ht).
    assert (EP : 0 <= E). { apply Rle_trans with (2 := ME 0%nat ltac:(unfold model_step; lia)). unfold total. rewrite <- (Rsum_const0 (regions p)). apply Rsum_le. intros r Hr. apply BE; [unfold model_step; lia|exact Hr]. }
    assert (C' : cum_between t <= dt p * INR (tf p) * E). { apply Rle_trans with (1 := proj2 C). apply Rmult_le_compat_r; [exact EP|]. apply Rmult_le_compat_l; lra. }
    unfold s_temp. cbn [T0 TCRE with_policy]. assert (X : 0 <= TCRE p * cum_between t) by (apply Rmult_le_pos; [exact M1|apply C]).
    assert (X' : TCRE p * cum_between t <= TCRE p * (dt p * INR (tf p) * E)) by (apply Rmult_le_compat_l; assumption).
    split; [lra|]. apply Rle_trans with (2 := MB). apply Rmult_le_compat_l; lra.
  Qed.
  Lemma b_nonneg t r : model_step p t -> In r (regions p) -> 0 <= between t r <= 5/2.
  Proof.
    intros Ht Hr. destruct t as [|t]; [cbn; lra|]. cbn [between].
    destruct (q_bounds_r p1 v F1 (S t) r Ht Hr) as (B1 & _). destruct (q_bounds_r p2 w F2 (S t) r Ht Hr) as (B2 & _). unfold relative_abatement.
    split; [apply mix_above|apply mix_below]; lra.
  Qed.
  Lemma b_learn q x t : feasible (with_policy q p) x -> model_step p t -> learning_factor x t = s_lot p t.
  Proof.
    intros F Ht. rewrite <- (r_learn (with_policy q p) x F t Ht). rewrite (learn_time (with_policy q p)) by apply LC. reflexivity.
  Qed.
  Lemma b_lot_pos t : 0 < s_lot p t.
  Proof. unfold s_lot. apply Rdiv_lt_0_compat; [lra|]. apply pow_lt. destruct NR as (_ & _ & _ & _ & X). lra. Qed.
  Definition scale (t : nat) (r : region) : R := s_lot p t * MAC_scaling p r * MAC_gamma p.
  Lemma b_scale t r : In r (regions p) -> 0 <= scale t r.
  Proof. intros Hr. unfold scale. pose proof (b_lot_pos t) as P. apply Rmult_le_pos; [apply Rmult_le_pos; [lra|auto]|exact MG]. Qed.
  Lemma b_price_of q x t r : feasible (with_policy q p) x -> model_step p t -> In r (regions p) ->
    carbonprice x t r = scale t r * apow (relative_abatement x t r) (MAC_beta p) /\
    area_under_MAC x t r = scale t r * (apow (relative_abatement x t r) (MAC_beta p + 1) / (MAC_beta p + 1)) * baseline_emissions p t r.
  Proof.
    intros F Ht Hr. assert (HB : 0 < MAC_beta p) by apply NR.
    destruct (C27_cost_curve_in_solution_pf (with_policy q p) x t r F Ht Hr HB) as [E1 E2]. unfold mac, ac, mac_scale in *. cbn [MAC_scaling MAC_gamma MAC_beta with_policy] in *.
    rewrite (b_learn q x t F Ht) in E1, E2. fold (scale t r) in E1, E2. split; [exact E1|]. rewrite E2. f_equal. unfold baseline.
    rewrite (q_baseline (with_policy q p) x F t r Ht Hr). cbn [use_carbon_intensity with_policy baseline_emissions]. rewrite UC. reflexivity.
  Qed.
  Lemma b_unit_power t r y : model_step p t -> In r (regions p) -> 0 <= y -> pypow (between t r) (MAC_beta p + y) = apow (between t r) (MAC_beta p + y).
  Proof. intros Ht Hr Hy. assert (HB : 0 < MAC_beta p) by apply NR. apply pypow_apow; [apply b_nonneg; auto|lra]. Qed.
  Lemma b_limits : within_limits p3 z.
  Proof.
    intros t Ht. assert (HB : 0 < MAC_beta p) by apply NR. change (model_step p t) in Ht.
    unfold cumulative_emissions at 1. unfold temperature, global_emissions, thermal_SLR, glacier_SLR, icesheet_SLR. cbn [gval sim].
    split; [apply mix_above; [exact L|apply (q_cum_nonneg p1 v F1 t Ht)|apply (q_cum_nonneg p2 w F2 t Ht)]|].
    split. { intros T X Y. apply mix_limit_some in X. destruct X as (x & y & X1 & X2 & ->).
      pose proof (q_target p1 v F1 t x Ht X1 Y) as Q1. pose proof (q_target p2 w F2 t y Ht X2 Y) as Q2. rewrite (q_temp p1 v F1 t Ht) in Q1. rewrite (q_temp p2 w F2 t Ht) in Q2.
      apply Rle_trans with (2 := mix_ge l _ _ _ _ L Q1 Q2). right. unfold s_temp, cum_between, cumulative_emissions, mix. cbn [T0 TCRE with_policy]. ring. }
    split. { intros B X Y. apply mix_limit_some in X. destruct X as (x & y & X1 & X2 & ->).
      apply (mix_ge l _ _ _ _ L (proj1 (q_budget p1 v F1 t x Ht X1 Y)) (proj1 (q_budget p2 w F2 t y Ht X2 Y))). }
    split. { intros B X Z Y. rewrite b_ge by exact Ht. apply mix_limit_some in X. destruct X as (x & y & X1 & X2 & ->). cbn [no_pos_after_budget_year with_policy mix_policy pol_net_zero] in Z. apply andb_prop in Z. destruct Z as [Z1 Z2].
      apply mix_below; [exact L|apply (q_net_zero p1 v F1 t x Ht X1 Z1 Y)|apply (q_net_zero p2 w F2 t y Ht X2 Z2 Y)]. }
    split. { intros m X. rewrite b_ge by exact Ht. apply mix_limit_some in X. destruct X as (x & y & X1 & X2 & ->).
      apply (mix_ge l _ _ _ _ L (q_min_g p1 v F1 t x Ht X1) (q_min_g p2 w F2 t y Ht X2)). }
    split. { intros i s X ->. assert (Hs : model_step p s) by (unfold model_step in *; lia). rewrite !b_ge by assumption. apply mix_limit_some in X. destruct X as (x & y & X1 & X2 & ->).
      pose proof (mix_ge l _ _ _ _ L (Rge_le _ _ (q_inertia_g p1 v F1 s x Ht X1)) (Rge_le _ _ (q_inertia_g p2 w F2 s y Ht X2))) as Q.
      unfold global_emissions, total. cbn [dt baseline_emissions regions with_policy] in *. unfold mix in *. lra. }
    destruct (seas_nonneg p3 cum_between t) as (S1 & S2 & S3).
    { apply NR. }
    { destruct (q_bounds p1 v F1 0 ltac:(cbn; lia)) as (B1 & _). rewrite (proj1 (q_slr0 p1 v F1)) in B1. exact B1. }
    { intros u Hu. apply b_temp_ok. unfold model_step in *. lia. }
    split; [exact S1|]. split; [apply S2|]. split; [apply S3|].
    intros r Hr. change (In r (regions p)) in Hr.
    unfold relative_abatement, carbonprice, sealevel_damages, regional_emissions, rel_mitigation_costs, damage_costs, GDP_gross. cbn [rval sim].
    pose proof (sim_gross p3 between cum_between NR SD t r Ht Hr) as YP. pose proof (b_nonneg t r Ht Hr) as A.
    split; [exact A|]. split.
    { unfold s_price. rewrite (learn_time p3) by apply LC. cbn [MAC_scaling MAC_gamma MAC_beta with_policy]. change (s_lot p3 t) with (s_lot p t). fold (scale t r).
      pose proof (b_unit_power t r 0 Ht Hr ltac:(lra)) as PW. rewrite !Rplus_0_r in PW. rewrite PW. pose proof (b_scale t r Hr) as SC. pose proof (apow_nonneg (between t r) (MAC_beta p)) as AP.
      split; [apply Rmult_le_pos; assumption|]. destruct t as [|t]; [cbn [between]; rewrite apow_0 by lra; lra|].
      destruct (q_bounds_r p1 v F1 (S t) r Ht Hr) as (_ & P1 & _). destruct (q_bounds_r p2 w F2 (S t) r Ht Hr) as (_ & P2 & _).
      fold (carbonprice v (S t) r) in P1. fold (carbonprice w (S t) r) in P2. rewrite (proj1 (b_price_of q1 v (S t) r F1 Ht Hr)) in P1. rewrite (proj1 (b_price_of q2 w (S t) r F2 Ht Hr)) in P2.
      cbn [MAC_gamma with_policy] in P1, P2. cbn [between]. destruct (Rle_lt_or_eq_dec _ _ SC) as [SP|SZ]; [|rewrite <- SZ; lra].
      assert (D : forall x, scale (S t) r * x <= 2 * MAC_gamma p -> x <= 2 * MAC_gamma p / scale (S t) r).
      { intros x Hx. apply Rmult_le_reg_l with (1 := SP). replace (scale (S t) r * (2 * MAC_gamma p / scale (S t) r)) with (2 * MAC_gamma p) by (field; lra). exact Hx. }
      pose proof (apow_mix_below (MAC_beta p) l _ _ _ HB L (D _ (proj2 P1)) (D _ (proj2 P2))) as Q.
      apply Rle_trans with (scale (S t) r * (2 * MAC_gamma p / scale (S t) r)); [apply Rmult_le_compat_l; assumption|right; field; lra]. }
    split; [intros Q; cbn [dmg_module with_policy] in Q; rewrite (proj1 (proj2 LC)) in Q; discriminate Q|].
    split. { intros m X. rewrite b_em by auto. apply mix_limit_some in X. destruct X as (x & y & X1 & X2 & ->).
      apply (mix_ge l _ _ _ _ L (q_min_r p1 v F1 t r x Ht Hr X1) (q_min_r p2 w F2 t r y Ht Hr X2)). }
    split. { intros i s X ->. assert (Hs : model_step p s) by (unfold model_step in *; lia). rewrite !b_em by auto. apply mix_limit_some in X. destruct X as (x & y & X1 & X2 & ->).
      pose proof (q_inertia_r p1 v F1 s r x Ht Hr X1) as Q1. pose proof (q_inertia_r p2 w F2 s r y Ht Hr X2) as Q2. try apply Rge_le in Q1. try apply Rge_le in Q2.
      pose proof (mix_ge l _ _ _ _ L Q1 Q2) as Q. unfold regional_emissions. cbn [dt baseline_emissions with_policy] in *. unfold mix in *. lra. }
    split. { intros s X -> Y. assert (Hs : model_step p s) by (unfold model_step in *; lia). rewrite !b_em by auto. cbn [non_increasing_after_2100 with_policy mix_policy pol_non_increasing] in X. apply andb_prop in X. destruct X as [X1 X2].
      pose proof (q_non_incr p1 v F1 s r Ht Hr X1 Y) as Q1. pose proof (q_non_incr p2 w F2 s r Ht Hr X2 Y) as Q2. try apply Rge_le in Q1. try apply Rge_le in Q2.
      apply (mix_ge l _ _ _ _ L Q1 Q2). }
    split; [|split; [|cbn [effort_regime with_policy]; replace (effort_regime p) with noregime by (symmetry; apply LC); repeat split; intros; discriminate]].
    - intros _. cbn [rel_mitigation_costs_min_level with_policy]. apply Rle_trans with 0; [apply LC|]. unfold Rdiv. apply Rmult_le_pos; [|apply Rlt_le, Rinv_0_lt_compat; exact YP].
      unfold s_M, s_base, s_unit. cbn [use_carbon_intensity with_policy baseline_emissions MAC_scaling MAC_gamma MAC_beta]. rewrite UC. apply Rmult_le_pos; [|apply BE; auto].
      rewrite (learn_time p3) by apply LC. change (s_lot p3 t) with (s_lot p t). fold (scale t r). rewrite (b_unit_power t r 1 Ht Hr ltac:(lra)).
      unfold Rdiv. apply Rmult_le_pos; [apply Rmult_le_pos; [apply b_scale; auto|apply apow_nonneg]|]. left. apply Rinv_0_lt_compat. lra.
    - intros TR. cbn [transfer with_policy] in TR. replace (transfer p) with notransfer in TR by (symmetry; apply LC). discriminate TR.
  Qed.
  Lemma b_feasible : feasible p3 z.
  Proof.
    apply sim_feasible.
    - exact NR.
    - exact SD.
    - apply b_usable.
    - unfold slr_logistic_ok. cbn [dmg_module with_policy]. replace (dmg_module p) with nodamage by (symmetry; apply LC). discriminate.
    - exact Al.
    - apply U1.
    - reflexivity.
    - intros X. cbn [use_carbon_intensity with_policy] in X. rewrite UC in X. discriminate X.
    - apply b_cum0.
    - intros t Ht. apply (b_cum_step t Ht).
    - apply b_limits.
  Qed.
  (** What it costs *)
  Lemma b_cost t r : (1 <= t <= tf p)%nat -> In r (regions p) -> mitigation_costs z t r <= mix l (area_under_MAC v t r) (area_under_MAC w t r) /\
    (0 < l < 1 -> 0 < MAC_gamma p -> 0 < MAC_scaling p r -> 0 < baseline_emissions p t r -> relative_abatement v t r <> relative_abatement w t r ->
     mitigation_costs z t r < mix l (area_under_MAC v t r) (area_under_MAC w t r)).
  Proof.
    intros Ht Hr. assert (M : model_step p t) by (unfold model_step; lia). assert (HB : 0 < MAC_beta p) by apply NR.
    rewrite (proj2 (b_price_of q1 v t r F1 M Hr)), (proj2 (b_price_of q2 w t r F2 M Hr)).
    assert (E : mitigation_costs z t r = scale t r * (apow (mix l (relative_abatement v t r) (relative_abatement w t r)) (MAC_beta p + 1) / (MAC_beta p + 1)) * baseline_emissions p t r).
    { unfold mitigation_costs. cbn [rval sim]. unfold s_M, s_base, s_unit. cbn [use_carbon_intensity with_policy baseline_emissions MAC_scaling MAC_gamma MAC_beta]. rewrite UC.
      rewrite (learn_time p3) by apply LC. change (s_lot p3 t) with (s_lot p t). fold (scale t r). rewrite (b_unit_power t r 1 M Hr ltac:(lra)). destruct t as [|t]; [lia|]. cbn [between]. unfold Rdiv. ring. }
    rewrite E. destruct (q_bounds_r p1 v F1 t r M Hr) as ((A1 & _) & _). destruct (q_bounds_r p2 w F2 t r M Hr) as ((A2 & _) & _).
    fold (relative_abatement v t r) in A1. fold (relative_abatement w t r) in A2. set (x := relative_abatement v t r) in *. set (y := relative_abatement w t r) in *.
    assert (D : forall fx fy, mix l (scale t r * fx * baseline_emissions p t r) (scale t r * fy * baseline_emissions p t r) = scale t r * mix l fx fy * baseline_emissions p t r) by (intros; unfold mix; ring).
    rewrite D. split.
    - apply Rmult_le_compat_r; [apply BE; auto|]. apply Rmult_le_compat_l; [apply b_scale; auto|]. apply apow_mix; auto.
    - intros L1 G S B N. apply Rmult_lt_compat_r; [exact B|]. apply Rmult_lt_compat_l; [|apply apow_mix_lt; auto].
      unfold scale. pose proof (b_lot_pos t) as P. apply Rmult_lt_0_compat; [apply Rmult_lt_0_compat; assumption|assumption].
  Qed.
  Lemma b_total q x t : feasible (with_policy q p) x -> model_step p t -> total p (mitigation_costs x t) = total p (area_under_MAC x t).
  Proof.
    intros F Ht. destruct (trade p) eqn:TR.
    - apply Rsum_ext. intros r Hr. apply (C35_notrade_own_costs_pf (with_policy q p) x t r F TR); auto.
    - exfalso. apply (proj1 U1). exact TR.
    - apply (C33_trade_zero_sum_pf (with_policy q p) x t F TR Ht).
  Qed.
  Lemma b_step_costs t : (1 <= t <= tf p)%nat -> total p (mitigation_costs z t) <= mix l (total p (mitigation_costs v t)) (total p (mitigation_costs w t)).
  Proof.
    intros Ht. assert (M : model_step p t) by (unfold model_step; lia). rewrite (b_total q1 v t F1 M), (b_total q2 w t F2 M). unfold total. rewrite <- Rsum_mix.
    apply Rsum_le. intros r Hr. apply b_cost; auto.
  Qed.
  Lemma b_plan_costs : plan_costs p z <= mix l (plan_costs p v) (plan_costs p w).
  Proof.
    unfold plan_costs. rewrite <- discounted_mix. apply discounted_le; [left; apply NR|]. intros t Ht. apply b_step_costs. exact Ht.
  Qed.
  Lemma b_plan_costs_lt t r : 0 < l < 1 -> 0 < MAC_gamma p -> (1 <= t <= tf p)%nat -> In r (regions p) -> 0 < MAC_scaling p r -> 0 < baseline_emissions p t r ->
    relative_abatement v t r <> relative_abatement w t r -> plan_costs p z < mix l (plan_costs p v) (plan_costs p w).
  Proof.
    intros L1 G Ht Hr S B N. unfold plan_costs. rewrite <- discounted_mix. apply (discounted_lt p _ _ (tf p) t); [apply NR|intros s Hs; apply b_step_costs; exact Hs|exact Ht|].
    assert (M : model_step p t) by (unfold model_step; lia). rewrite (b_total q1 v t F1 M), (b_total q2 w t F2 M). unfold total. rewrite <- Rsum_mix.
    apply (Rsum_lt _ _ _ r); [intros q Hq; apply (proj1 (b_cost t q Ht Hq))|exact Hr|apply (proj2 (b_cost t r Ht Hr)); auto].
  Qed.
End Blend.
