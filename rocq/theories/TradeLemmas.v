(** C33-C38: emission trade, financial transfers, effort sharing. *)
From Coq Require Import Lra Lia.
From Verif Require Import ModelFacts SoftFacts ModelSpec Equations Equations2 Transfer Build VarFacts.
Set Bullet Behavior "Strict Subproofs".

Lemma C33_trade_zero_sum_pf : forall p v t, feasible p v -> trade p = emissiontrade -> model_step p t ->
  total p (traded_costs v t) = 0 /\
  total p (mitigation_costs v t) = total p (area_under_MAC v t) /\
  ((0 < t)%nat ->
     total p (traded_reductions v t) = 0 /\
     total p (paid_for_reductions v t) = total p (emission_reduction v t) /\
     total p (allowances v t) = global_emissions v t).
Proof.
  intros p v t F T Ht. unfold total, model_step in *.
  assert (B : Rsum (traded_costs v t) (regions p) = 0) by (apply (q_et_balance p v F T); auto).
  split; [exact B|]. split.
  - replace (Rsum (mitigation_costs v t) (regions p))
      with (Rsum (area_under_MAC v t) (regions p) + Rsum (traded_costs v t) (regions p)); [rewrite B; lra|].
    rewrite <- Rsum_plus. apply Rsum_ext. intros r Hr. symmetry.
    unfold mitigation_costs, area_under_MAC, traded_costs. rewrite (q_mitigation p v F), (q_area p v F) by auto.
    unfold cost_balance. rewrite T. reflexivity.
  - intros H0.
    assert (R0 : Rsum (traded_reductions v t) (regions p) = 0).
    { rewrite (Rsum_ext _ (fun r => traded_costs v t r / smin 1 (global_carbonprice v t))).
      - rewrite Rsum_div, B. unfold Rdiv. lra.
      - intros r Hr. apply (q_et_emission p v F T); auto. }
    split; [exact R0|].
    assert (P : Rsum (paid_for_reductions v t) (regions p) = Rsum (emission_reduction v t) (regions p)).
    { rewrite (Rsum_ext _ (fun r => emission_reduction v t r + traded_reductions v t r)).
      - rewrite Rsum_plus, R0. lra.
      - intros r Hr. apply (q_et_paid p v F T); auto. }
    split; [exact P|].
    rewrite (Rsum_ext _ (fun r => baseline v t r - paid_for_reductions v t r)).
    + rewrite Rsum_minus, P, <- Rsum_minus. unfold global_emissions. rewrite (q_global p v F) by auto.
      apply Rsum_ext. intros r Hr. pose proof (q_reduction p v F t r Ht Hr) as E.
      unfold emission_reduction, baseline. lra.
    + intros r Hr. apply (q_et_allow p v F T); auto.
Qed.
(** Every traded unit has the same price, and that price is positive. *)
Lemma C33_single_trade_price_pf : forall p v t, feasible p v -> trade p = emissiontrade -> model_step p t -> (0 < t)%nat ->
  exists price, 0 < price /\ forall r, In r (regions p) -> traded_costs v t r = price * traded_reductions v t r.
Proof.
  intros p v t F T Ht H0. exists (smin 1 (global_carbonprice v t)).
  assert (0 < smin 1 (global_carbonprice v t)) by (apply smin_pos; lra). split; auto.
  intros r Hr. unfold traded_reductions, traded_costs. rewrite (q_et_emission p v F T) by auto.
  unfold global_carbonprice in *. field. lra.
Qed.
Lemma wavg_bounds (f w : region -> R) l lo hi : (forall r, In r l -> 0 <= w r) -> 0 < Rsum w l ->
  (forall r, In r l -> lo <= f r <= hi) -> lo <= Rsum (fun r => f r * w r) l / Rsum w l <= hi.
Proof.
  intros Hw Hs Hf.
  assert (A : lo * Rsum w l <= Rsum (fun r => f r * w r) l).
  { rewrite <- Rsum_scal. apply Rsum_le. intros r Hr. apply Rmult_le_compat_r; auto. apply Hf; auto. }
  assert (B : Rsum (fun r => f r * w r) l <= hi * Rsum w l).
  { rewrite <- Rsum_scal. apply Rsum_le. intros r Hr. apply Rmult_le_compat_r; auto. apply Hf; auto. }
  split; apply Rmult_le_reg_r with (Rsum w l); auto; unfold Rdiv; rewrite Rmult_assoc, Rinv_l by lra; lra.
Qed.
(** The global carbon price is a population-weighted mean of the regional ones: between their extremes. *)
Lemma C33_global_price_between_pf : forall p v t lo hi, feasible p v -> trade p = emissiontrade -> model_step p t ->
  (forall r, In r (regions p) -> 0 <= population p t r) -> 0 < total p (population p t) ->
  (forall r, In r (regions p) -> lo <= carbonprice v t r <= hi) -> lo <= global_carbonprice v t <= hi.
Proof.
  intros p v t lo hi F T Ht Hp Hs Hc. unfold global_carbonprice. rewrite (q_et_price p v F T) by auto.
  apply wavg_bounds; auto.
Qed.

(** The documented payment limits are never used. *)
Lemma C34_payment_limits_have_no_effect_refuted_pf : forall p v lo hi,
  feasible (with_min_rel_payment_level lo (with_max_rel_payment_level hi p)) v <-> feasible p v.
Proof. intros p v lo hi. split; intros H; exact H. Qed.

Lemma C35_notrade_own_costs_pf : forall p v t r, feasible p v -> trade p = notrade -> model_step p t ->
  In r (regions p) -> mitigation_costs v t r = area_under_MAC v t r /\ imported_costs p v t r = 0.
Proof.
  intros p v t r F T Ht Hr. unfold mitigation_costs, area_under_MAC.
  rewrite (q_mitigation p v F), (q_area p v F) by auto. unfold cost_balance, imported_costs. rewrite T. cbn [deno]. split; lra.
Qed.

Definition trade_point (p : pars) (v : point) : point := {|
  gval := fun g t => match g with
                     | g_global_carbonprice => Rsum (fun r => rval v v_carbonprice t r * population p t r) (regions p)
                                                / Rsum (population p t) (regions p)
                     | _ => gval v g t end;
  rval := fun x t r => match x with
                       | v_import_export_mitigation_cost_balance => 0
                       | v_import_export_emission_reduction_balance => 0
                       | v_paid_for_emission_reductions => rval v v_regional_emission_reduction t r
                       | v_regional_emission_allowances => rval v v_baseline t r - rval v v_regional_emission_reduction t r
                       | _ => rval v x t r end |}.
Lemma trade_point_feasible p v : feasible p v -> trade p = notrade -> feasible p (trade_point p v).
Proof.
  intros F T. apply (feasible_agree p v); auto.
  - intros g t D Ht. destruct g; try reflexivity. cbn in D. rewrite T in D. discriminate.
  - intros x t r D Ht Hr. destruct x; try reflexivity; cbn in D; rewrite T in D; discriminate.
Qed.
(** Emission trade can only help: every solution without trade is a solution with trade. *)
Lemma C35_trade_can_only_help_pf : forall p v, trade p = notrade -> effort_regime p <> per_cap_convergence ->
  (forall t, model_step p t -> total p (population p t) <> 0) -> feasible p v ->
  exists w, feasible (with_trade emissiontrade p) w /\ objective_value (with_trade emissiontrade p) w = objective_value p v /\
            same_values (declared_r p) p v w.
Proof.
  intros p v T R HP F. exists (trade_point p v). split; [|split].
  - pose proof (trade_point_feasible p v F T) as H. transfer H; try clear Ht.
    + intros t r Ht Hr. cbn [holds_c] in H1. specialize (H1 t r Ht Hr).
      unfold c_mitigation_costs, cost_balance in *. rewrite T in H1. cbn [trade with_trade].
      destruct H1 as (A1 & A2 & C). split; [exact A1|]. split.
      * destruct A2 as [A2 _]. split; [exact A2|exact I].
      * cbn [deno] in C |- *. exact C.
    + unfold trade_constraints. cbn [trade with_trade]. unfold emissiontrade_constraints.
      repeat (apply Forall_cons); [| | | | |apply Forall_nil].
      * intros t Ht. split; [exact I|]. split.
        -- split; [apply defd_esum; intros; split; exact I|]. split; [apply defd_esum; intros; exact I|].
           rewrite deno_esum. exact (HP t Ht).
        -- cbn [deno]. rewrite !deno_esum. reflexivity.
      * intros t Ht. split; [apply defd_esum; intros; exact I|]. split; [exact I|].
        rewrite deno_esum. cbn [deno rval trade_point]. apply Rsum_const0.
      * intros t r Ht Hr. unfold c_import_export_emission. destruct (Nat.ltb 0 t); [|exact I].
        split; [exact I|]. split.
        -- split; [exact I|]. split; [apply defd_soft_min; [lra|exact I]|]. rewrite deno_soft_min. apply Rgt_not_eq, smin_pos; lra.
        -- cbn [deno rval trade_point]. unfold Rdiv. lra.
      * intros t r Ht Hr. unfold c_paid_for. destruct (Nat.ltb 0 t); [|exact I].
        split; [exact I|]. split; [split; exact I|]. cbn [deno rval trade_point]. lra.
      * intros t r Ht Hr. unfold c_allowances. destruct (Nat.ltb 0 t); [|exact I].
        split; [exact I|]. split; [split; exact I|]. cbn [deno rval trade_point]. lra.
    + intros t r Ht Hr Hi. exfalso. cbn in Hi. apply R. destruct (effort_regime p); auto; discriminate.
    + intros t Ht. destruct (B t Ht) as (B1 & B2 & B3 & B4 & B5). repeat (split; [assumption|]).
      intros r Hr. destruct (B5 r Hr) as (C1 & C2 & C3 & C4). split; [exact C1|]. split; [exact C2|]. split; [exact C3|].
      intros X. discriminate X.
  - reflexivity.
  - split.
    + intros g t Ht Hg. destruct g; try reflexivity. congruence.
    + intros x t r D Ht Hr. destruct x; try reflexivity; cbn in D; rewrite T in D; discriminate.
Qed.

Lemma C36_transfers_zero_sum_pf : forall p v t, feasible p v -> transfer p = globaldamagepool -> model_step p t ->
  total p (transfer_paid p v t) = 0 /\
  total p (GDP_net v t)
  = total p (fun r => GDP_gross v t r * (1 - if ignore_damages p then 0 else damage_costs v t r)) - total p (mitigation_costs v t) /\
  (forall r, In r (regions p) ->
     - transfer_paid p v t r <= damage_costs v t r * GDP_gross v t r /\
     (t = 0%nat -> transfer_paid p v t r = 0) /\
     rel_transfer_paid p v t r * GDP_gross v t r = transfer_paid p v t r).
Proof.
  intros p v t F T Ht. unfold total, transfer_paid, rel_transfer_paid, model_step in *. rewrite T.
  assert (Z : Rsum (rval v v_financial_transfer t) (regions p) = 0).
  { destruct t as [|t].
    - rewrite (Rsum_ext _ (fun _ => 0)); [apply Rsum_const0|]. intros r Hr. apply (q_tr_first p v F T); auto.
    - apply (q_tr_zero p v F T). lia. }
  split; [exact Z|]. split.
  - rewrite (Rsum_ext (GDP_net v t) (fun r => (GDP_gross v t r * (1 - if ignore_damages p then 0 else damage_costs v t r))
        - mitigation_costs v t r - rval v v_financial_transfer t r)).
    + rewrite !Rsum_minus. rewrite Z. lra.
    + intros r Hr. unfold GDP_net. rewrite (q_GDP_net p v F) by auto. unfold financial_transfer. rewrite T.
      cbn [deno]. unfold GDP_gross, damage_costs, mitigation_costs. destruct (ignore_damages p); cbn [deno]; lra.
  - intros r Hr. split; [|split].
    + pose proof (q_tr_max p v F T t r Ht Hr). unfold damage_costs, GDP_gross. lra.
    + intros ->. apply (q_tr_first p v F T); auto.
    + apply (q_tr_rel p v F T); auto.
Qed.
Lemma C36_no_transfers_without_module_pf : forall p v t r, feasible p v -> transfer p = notransfer -> model_step p t -> In r (regions p) ->
  transfer_paid p v t r = 0 /\
  GDP_net v t r = GDP_gross v t r * (1 - (if ignore_damages p then 0 else damage_costs v t r)) - mitigation_costs v t r.
Proof.
  intros p v t r F T Ht Hr. unfold transfer_paid. rewrite T. split; auto.
  unfold GDP_net. rewrite (q_GDP_net p v F) by auto. unfold financial_transfer. rewrite T.
  cbn [deno]. unfold GDP_gross, damage_costs, mitigation_costs. destruct (ignore_damages p); cbn [deno]; lra.
Qed.
(** The bound is two-sided in effect: a region that gains from climate change must pay at least its gain,
    and the pool excludes every solution in which the world as a whole gains. *)
Lemma C36_beneficiaries_must_pay_refuted_pf : forall p v t, feasible p v -> transfer p = globaldamagepool -> model_step p t ->
  (forall r, In r (regions p) -> damage_costs v t r * GDP_gross v t r < 0 -> 0 < transfer_paid p v t r) /\
  0 <= total p (fun r => damage_costs v t r * GDP_gross v t r).
Proof.
  intros p v t F T Ht. destruct (C36_transfers_zero_sum_pf p v t F T Ht) as (Z & _ & H). split.
  - intros r Hr L. destruct (H r Hr) as [A _]. lra.
  - assert (total p (fun r => - transfer_paid p v t r) <= total p (fun r => damage_costs v t r * GDP_gross v t r)).
    { apply Rsum_le. intros r Hr. apply H; auto. }
    unfold total in *. rewrite (Rsum_ext _ (fun r => (-1) * transfer_paid p v t r)) in H0 by (intros; lra).
    rewrite Rsum_scal in H0. lra.
Qed.

(** Relative costs of any two regions are within the tolerance (and cannot be negative). *)
Lemma soft_pair x y L : x <= (1 + 1 * (5/1000)) * L -> x >= (1 + -1 * (5/1000)) * L ->
  y <= (1 + 1 * (5/1000)) * L -> y >= (1 + -1 * (5/1000)) * L -> 0 <= x /\ Rabs (x - y) <= 1/100 * L /\ 0 <= L /\ 995 * x <= 1005 * y.
Proof. intros. split; [lra|]. split; [apply Rabs_le; lra|]. lra. Qed.
Lemma C37_equal_mitigation_costs_pf : forall p v t, feasible p v -> effort_regime p = equal_mitigation_costs -> model_step p t ->
  exists level, forall r, In r (regions p) ->
    0 <= level /\ Rabs (rel_mitigation_costs v t r - level) <= 5/1000 * level /\ 0 <= rel_mitigation_costs v t r /\
    forall s, In s (regions p) -> 995 * rel_mitigation_costs v t r <= 1005 * rel_mitigation_costs v t s.
Proof.
  intros p v t F E Ht. exists (gval v g_effort_sharing_common_level t). intros r Hr.
  destruct (q_eff_mitigation p v F t r E Ht Hr) as [A B]. unfold rel_mitigation_costs.
  split; [lra|]. split; [apply Rabs_le; lra|]. split; [lra|]. intros s Hs.
  destruct (q_eff_mitigation p v F t s E Ht Hs) as [C D]. lra.
Qed.
Lemma C37_equal_total_costs_pf : forall p v t, feasible p v -> effort_regime p = equal_total_costs -> model_step p t -> year p t <= 2100 ->
  exists level, forall r, In r (regions p) ->
    let cost r := rel_mitigation_costs v t r + damage_costs v t r + rel_transfer_paid p v t r in
    0 <= level /\ Rabs (cost r - level) <= 5/1000 * level /\ 0 <= cost r /\
    forall s, In s (regions p) -> 995 * cost r <= 1005 * cost s.
Proof.
  intros p v t F E Ht Y. exists (gval v g_effort_sharing_common_level t). intros r Hr. cbn zeta.
  assert (Q : forall s, In s (regions p) -> deno v (rel_financial_transfer p t s) = rel_transfer_paid p v t s).
  { intros s Hs. unfold rel_financial_transfer, rel_transfer_paid. destruct (transfer p); reflexivity. }
  destruct (q_eff_total p v F t r E Ht Hr Y) as [A B]. rewrite Q in A, B by auto. unfold rel_mitigation_costs, damage_costs.
  split; [lra|]. split; [apply Rabs_le; lra|]. split; [lra|]. intros s Hs.
  destruct (q_eff_total p v F t s E Ht Hs Y) as [C D]. rewrite Q in C, D by auto. lra.
Qed.
(** After 2100 equal total costs impose nothing. *)
Lemma C37_equal_total_costs_only_until_2100_refuted_pf : forall p v, 2100 < beginyear p -> 0 < dt p ->
  (feasible (with_effort_regime equal_total_costs p) v <-> feasible (with_effort_regime noregime p) v).
Proof.
  intros p v Hb Hdt.
  assert (Y : forall t, Rltb 2100 (year p t) = true).
  { intros t. apply Rltb_true. unfold year. pose proof (pos_INR t). assert (0 <= INR t * dt p) by (apply Rmult_le_pos; lra). lra. }
  split; intros H; transfer H; intros t r Hq Hr Hi; cbn in Hi.
  - exfalso. discriminate Hi.
  - exfalso. change (year (with_effort_regime equal_total_costs p) t) with (year p t) in Hi. rewrite Y in Hi. discriminate Hi.
Qed.

(** ** per-capita convergence *)
Lemma minmax1 x : Rmin x 1 + Rmax (1 - x) 0 = 1.
Proof. unfold Rmin, Rmax. destruct (Rle_dec x 1), (Rle_dec (1 - x) 0); lra. Qed.
Lemma share_cases p t r y : percapconv_year p = Some y -> y <> beginyear p ->
  percapconv_share p t r = let lin := (year p t - beginyear p) / (y - beginyear p) in
    Rmin lin 1 * population_share p t r + Rmax (1 - lin) 0 * initial_share p r.
Proof.
  intros Hy Hn. unfold percapconv_share. rewrite Hy.
  assert (Y0 : year p 0 = beginyear p) by (unfold year; cbn; lra). rewrite !Y0.
  rewrite (proj2 (Reqb_false y (beginyear p)) Hn). reflexivity.
Qed.
Lemma C38_shares_sum_to_one_pf : forall p t, total p (population p t) <> 0 -> total p (baseline_emissions p 0) <> 0 ->
  total p (percapconv_share p t) = 1.
Proof.
  intros p t H1 H2. unfold total in *.
  assert (SP : Rsum (percapconv_share_pop p t) (regions p) = 1).
  { unfold percapconv_share_pop. rewrite Rsum_div. field; auto. }
  assert (SI : Rsum (percapconv_share_init p) (regions p) = 1).
  { unfold percapconv_share_init. rewrite Rsum_div. field; auto. }
  unfold percapconv_share.
  destruct (Reqb (match percapconv_year p with Some y => y | None => 0 end) (year p 0)) eqn:E.
  - exact SP.
  - cbn zeta. rewrite Rsum_plus, !Rsum_scal, SP, SI, !Rmult_1_r. apply minmax1.
Qed.
(** With a convergence year after the start year: initial shares in the first year, population shares from the
    convergence year on, and in between a share between both. *)
Lemma C38_convergence_path_pf : forall p y t r, percapconv_year p = Some y -> beginyear p < y -> 0 < dt p ->
  (t = 0%nat -> percapconv_share p t r = initial_share p r) /\
  (y <= year p t -> percapconv_share p t r = population_share p t r) /\
  Rmin (initial_share p r) (population_share p t r) <= percapconv_share p t r
  <= Rmax (initial_share p r) (population_share p t r).
Proof.
  intros p y t r Hy Hb Hdt. rewrite (share_cases p t r y Hy) by lra. cbn zeta.
  set (lin := (year p t - beginyear p) / (y - beginyear p)).
  set (a := initial_share p r). set (b := population_share p t r).
  assert (L0 : 0 <= lin).
  { unfold lin, Rdiv. apply Rmult_le_pos; [|left; apply Rinv_0_lt_compat; lra].
    unfold year. pose proof (pos_INR t). assert (0 <= INR t * dt p) by (apply Rmult_le_pos; lra). lra. }
  split; [|split].
  - intros ->. assert (lin = 0) as -> by (unfold lin, year; cbn; unfold Rdiv; ring).
    rewrite Rmin_left, Rmax_left by lra. ring.
  - intros Y. assert (1 <= lin).
    { unfold lin. apply Rmult_le_reg_r with (y - beginyear p); [lra|]. unfold Rdiv. rewrite Rmult_assoc, Rinv_l by lra. lra. }
    rewrite Rmin_right, Rmax_right by lra. ring.
  - pose proof (minmax1 lin) as M. set (u := Rmin lin 1) in *. set (w := Rmax (1 - lin) 0) in *.
    assert (0 <= u) by (unfold u; apply Rmin_glb; lra). assert (0 <= w) by (unfold w; apply Rmax_r).
    assert (w = 1 - u) as -> by lra.
    unfold Rmin, Rmax. destruct (Rle_dec a b); split; nra.
Qed.
(** The allowances follow the shares within the tolerance of 0.001. *)
Lemma C38_allowances_follow_shares_pf : forall p v t r, feasible p v -> effort_regime p = per_cap_convergence ->
  (0 < t)%nat -> model_step p t -> In r (regions p) ->
  trade p = emissiontrade /\ Rabs (percapconv_share p t r * global_emissions v t - allowances v t r) <= 1/1000.
Proof.
  intros p v t r F E H0 Ht Hr. destruct (q_eff_percap p v F t r E (conj H0 Ht) Hr) as (T & A & B).
  split; auto. unfold global_emissions, allowances. apply Rabs_le. lra.
Qed.
(** "False means grandfathering" does not hold: the shares move away from the population shares linearly. *)
Lemma C38_grandfathering_never_used_refuted_pf : forall p t r, percapconv_year p = None -> 0 < beginyear p -> 0 < dt p ->
  percapconv_share p t r = initial_share p r + (year p t - beginyear p) / beginyear p * (initial_share p r - population_share p t r) /\
  ((0 < t)%nat -> initial_share p r <> population_share p t r -> percapconv_share p t r <> initial_share p r).
Proof.
  intros p t r Hy Hb Hdt.
  assert (N : 0 <= year p t - beginyear p).
  { unfold year. pose proof (pos_INR t). assert (0 <= INR t * dt p) by (apply Rmult_le_pos; lra). lra. }
  assert (E : percapconv_share p t r = initial_share p r + (year p t - beginyear p) / beginyear p * (initial_share p r - population_share p t r)).
  { unfold percapconv_share. rewrite Hy.
    assert (Y0 : year p 0 = beginyear p) by (unfold year; cbn; lra). rewrite !Y0.
    rewrite (proj2 (Reqb_false 0 (beginyear p)) ltac:(lra)). cbn zeta.
    set (q := (year p t - beginyear p) / beginyear p).
    assert (0 <= q) by (unfold q, Rdiv; apply Rmult_le_pos; [auto|left; apply Rinv_0_lt_compat; auto]).
    replace ((year p t - beginyear p) / (0 - beginyear p)) with (- q) by (unfold q; field; lra).
    rewrite Rmin_left, Rmax_left by lra. unfold percapconv_share_pop, percapconv_share_init, initial_share, population_share, total. ring. }
  split; [exact E|]. intros H0 Hn X. rewrite X in E.
  assert (0 < (year p t - beginyear p) / beginyear p).
  { apply Rdiv_lt_0_compat; auto. unfold year. apply lt_INR in H0. cbn in H0.
    assert (0 < INR t * dt p) by (apply Rmult_lt_0_compat; lra). lra. }
  apply Hn. nra.
Qed.
(** A convergence year before the start year (accepted) makes the shares diverge as well. *)
Lemma C38_convergence_before_start_refuted_pf : forall p y t r, percapconv_year p = Some y -> y < beginyear p -> 0 < dt p ->
  percapconv_share p t r
  = initial_share p r + (year p t - beginyear p) / (beginyear p - y) * (initial_share p r - population_share p t r).
Proof.
  intros p y t r Hy Hb Hdt. rewrite (share_cases p t r y Hy) by lra. cbn zeta.
  assert (N : 0 <= year p t - beginyear p).
  { unfold year. pose proof (pos_INR t). assert (0 <= INR t * dt p) by (apply Rmult_le_pos; lra). lra. }
  set (q := (year p t - beginyear p) / (beginyear p - y)).
  assert (0 <= q) by (unfold q, Rdiv; apply Rmult_le_pos; [auto|left; apply Rinv_0_lt_compat; lra]).
  replace ((year p t - beginyear p) / (y - beginyear p)) with (- q) by (unfold q; field; lra).
  rewrite Rmin_left, Rmax_left by lra. ring.
Qed.
