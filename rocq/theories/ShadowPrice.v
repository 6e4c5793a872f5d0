(** C70 for the welfare objective: carbon prices at optimal plans differ only by the value of the costs they cause. *)
From Coq Require Import Reals List String Lra Lia.
From Verif Require Import ModelFacts SoftFacts ModelSpec PowFacts Equations Equations2 Build VarFacts EconLemmas BuildFacts BuildLemmas DefinedFacts
  SolveFacts ClimateSpec ClimateLemmas WelfareSpec WelfareLemmas MitigationLemmas TradeLemmas PolicySpec PolicyLemmas Simulate SimFacts ExistSpec ExistFacts ExistLemmas
  DominanceSpec DominanceLemmas ReallocateSpec Reallocate Exchange ShadowSpec RightDeriv ShadowLemmas.
Import ListNotations.
Open Scope R_scope.
Set Bullet Behavior "Strict Subproofs".

Lemma welfare_is p v t : feasible p v -> model_step p t -> positive_data p -> yearly_welfare v t = welfare_of p t (consumption v t).
Proof.
  intros F Ht PD. unfold welfare_of. destruct (welfare p) eqn:E.
  - apply (proj2 (wlm_welfare p v t F Ht E ltac:(intros r Hr; destruct (PD r Hr) as [_ D]; apply (D t Ht)))).
  - apply (proj2 (cm_welfare p v t F Ht E)).
  - destruct (iag_welfare p v t F Ht E) as (_ & _ & ->). reflexivity.
Qed.
Lemma steps_sum_lin a b f g n : steps_sum (fun t => a * f t + b * g t) n = a * steps_sum f n + b * steps_sum g n.
Proof. induction n as [|n IH]; cbn [steps_sum]; [ring|]. rewrite IH. ring. Qed.

Section Price.
  Variables (p : pars) (v : point) (t0 : nat) (r s : region) (mu mp : nat -> region -> R).
  Hypotheses (F : feasible p v) (NR : numeric_ranges p) (SD : sound_data p) (U : usable_choices p) (SL : slr_logistic_ok p) (Al : 0 <= alpha p < 1).
  Hypotheses (UC : use_carbon_intensity p = false) (ER : effort_regime p = noregime) (NT : transfer p = notransfer) (ND : NoDup (regions p)).
  Hypotheses (MS : forall q, In q (regions p) -> 0 <= MAC_scaling p q) (MG : 0 <= MAC_gamma p) (ML : rel_mitigation_costs_min_level p <= 0).
  Hypothesis BE : forall t q, model_step p t -> In q (regions p) -> 0 <= baseline_emissions p t q.
  Hypotheses (T0r : (1 <= t0 <= tf p)%nat) (Hr : In r (regions p)) (Hs : In s (regions p)) (NE : r <> s).
  Hypotheses (Er : 0 < baseline_emissions p t0 r) (Es : 0 < baseline_emissions p t0 s).
  Hypotheses (Rr : can_abate_more p v t0 r) (Rs : can_abate_less p v t0 s).
  Hypotheses (OB : objective p = utility) (TR : trade p = notrade).
  Hypothesis AFF : forall t q, (S t <= tf p)%nat -> In q (regions p) -> dt p * sr p * mitigation_costs v (S t) q < capital_stock v t q.
  Hypothesis DS : forall t q, (1 <= t <= tf p)%nat -> In q (regions p) -> damage_share p v t q <= 1.
  Hypotheses (MP : marginal_product p v mp) (MW : marginal_welfare p v mu).
  Notation w d := (sim p (shifted p v t0 r s d) (cumulative_emissions v) (fun _ => 0)).
  Definition W (d : R) : point := if Req_EM_T d 0 then v else w d.
  Definition weight (q : region) : R := if String.eqb q r then carbonprice v t0 r else if String.eqb q s then - carbonprice v t0 s else 0.
  Definition M' (t : nat) (q : region) : R := if Nat.eqb t t0 then weight q else 0.
  Lemma W_0 : W 0 = v.
  Proof. unfold W. destruct (Req_EM_T 0 0); [reflexivity|contradiction]. Qed.
  Lemma W_pos d : 0 < d -> W d = w d.
  Proof. intros D. unfold W. destruct (Req_EM_T d 0); [lra|reflexivity]. Qed.
  Lemma fits_soon : soonp (fun d => fits p v t0 r (d / baseline_emissions p t0 r) /\ fits p v t0 s (- (d / baseline_emissions p t0 s))).
  Proof.
    assert (Ir : 0 <= / baseline_emissions p t0 r) by (left; apply Rinv_0_lt_compat; exact Er).
    assert (Is : 0 <= / baseline_emissions p t0 s) by (left; apply Rinv_0_lt_compat; exact Es).
    destruct (soon_and _ _ (fits_more p v t0 F NR T0r r (/ baseline_emissions p t0 r) Hr Rr Ir ltac:(lra))
      (fits_less p v t0 F NR T0r s (/ baseline_emissions p t0 s) Hs Rs Is ltac:(lra) (MS s Hs) MG)) as (e & E0 & H).
    exists e. split; [exact E0|]. intros d D. destruct (H d ltac:(lra)) as [F1 F2]. unfold Rdiv. split.
    - rewrite Rmult_comm. exact F1.
    - replace (- (d * / baseline_emissions p t0 s)) with (- / baseline_emissions p t0 s * d) by ring. exact F2.
  Qed.
  Lemma W_feasible : soonp (fun d => feasible p (W d) /\ forall t q, model_step p t -> In q (regions p) -> damage_share p (W d) t q = damage_share p v t q).
  Proof.
    eapply soonp_imp; [exact fits_soon|]. intros d D [Fr Fs]. rewrite (W_pos d D). split.
    - apply shifted_feasible; auto.
    - intros t q Ht Hq. unfold damage_share. destruct (ignore_damages p); [reflexivity|]. unfold damage_costs at 1. cbn [rval sim]. apply (r_damage p v F t q Ht Hq).
  Qed.
  Lemma W_costs t q : (1 <= t <= tf p)%nat -> In q (regions p) -> rd (fun d => mitigation_costs (W d) t q) (M' t q).
  Proof.
    intros Ht Hq. assert (Mt : model_step p t) by (unfold model_step; lia).
    assert (C0 : mitigation_costs v t q = area_under_MAC v t q) by (apply (C35_notrade_own_costs_pf p v t q F TR); auto).
    unfold M'. destruct (Nat.eqb_spec t t0) as [->|N].
    - apply (rd_ext (fun d => cost_of p v t0 q (change p t0 r s d t0 q))).
      + rewrite W_0, C0, (cost_v p v F NR UC t0 q Mt Hq). unfold cost_of, ac. f_equal. f_equal. f_equal. f_equal.
        unfold change. rewrite Nat.eqb_refl. unfold Rdiv. rewrite !Rmult_0_l, Ropp_0. destruct (String.eqb q r); destruct (String.eqb q s); ring.
      + eapply soonp_imp; [exact fits_soon|]. intros d D [Fr Fs]. rewrite (W_pos d D).
        rewrite (cost_w p v t0 r s F NR SD U SL Al UC ER NT ND MS MG ML BE T0r Hr Hs NE Er Es Rr Rs d t0 q Fr Fs Ht Hq), Nat.eqb_refl. reflexivity.
      + unfold weight. destruct (String.eqb_spec q r) as [->|N1].
        * apply (rd_same (fun d => cost_of p v t0 r (/ baseline_emissions p t0 r * d))).
          { intros d. rewrite change_r. f_equal. unfold Rdiv. ring. }
          apply rd_deriv. replace (carbonprice v t0 r) with (carbonprice v t0 r * (baseline_emissions p t0 r * / baseline_emissions p t0 r)) by (field; lra).
          apply cost_deriv; auto.
        * destruct (String.eqb_spec q s) as [->|N2].
          { apply (rd_same (fun d => cost_of p v t0 s (- / baseline_emissions p t0 s * d))).
            { intros d. rewrite change_s by auto. f_equal. unfold Rdiv. ring. }
            apply rd_deriv. replace (- carbonprice v t0 s) with (carbonprice v t0 s * (baseline_emissions p t0 s * - / baseline_emissions p t0 s)) by (field; lra).
            apply cost_deriv; auto. }
          apply (rd_same (fun _ => cost_of p v t0 q 0)); [|apply rd_const]. intros d. rewrite change_other by tauto. reflexivity.
    - apply (rd_ext (fun _ => area_under_MAC v t q)); [rewrite W_0; auto| |apply rd_const].
      eapply soonp_imp; [exact fits_soon|]. intros d D [Fr Fs]. rewrite (W_pos d D).
      rewrite (cost_w p v t0 r s F NR SD U SL Al UC ER NT ND MS MG ML BE T0r Hr Hs NE Er Es Rr Rs d t q Fr Fs Ht Hq).
      destruct (Nat.eqb_spec t t0); [contradiction|reflexivity].
  Qed.
  Lemma K'_lost q t : K' p v M' mp q t = - weight q * capital_lost p v mp t0 q t.
  Proof.
    induction t as [|t IH]; cbn [K' capital_lost]; [ring|]. rewrite IH. unfold M', Rdiv. destruct (Nat.eqb (S t) t0); ring.
  Qed.
  Lemma C'_lost t q : C' p v M' mp t q = - ((1 - sr p) * (weight q * income_lost p v mp t0 q t)).
  Proof. unfold C', income_lost. rewrite K'_lost. unfold M'. destruct (Nat.eqb t t0); ring. Qed.
  Definition N' : R := - ((1 - sr p) * (carbonprice v t0 r * value_of_costs p v mu mp t0 r - carbonprice v t0 s * value_of_costs p v mu mp t0 s)).
  Lemma rd_objective : rd (fun d => discounted p (yearly_welfare (W d)) (tf p)) N'.
  Proof.
    assert (PD : positive_data p) by apply SD.
    unfold discounted. set (disc := fun u => dt p * exp (- PRTP p * (year p u - beginyear p))).
    eapply rd_eq; [apply (rd_steps (fun d t => disc t * yearly_welfare (W d) t) (fun t => disc t * total p (fun q => mu t q * C' p v M' mp t q)) (tf p))|].
    - intros t Ht. assert (Mt : model_step p t) by (unfold model_step; lia). apply rd_scal.
      apply (rd_ext (fun d => welfare_of p t (consumption (W d) t))).
      + rewrite W_0. symmetry. apply welfare_is; auto.
      + eapply soonp_imp; [exact W_feasible|]. intros d _ [Fd _]. symmetry. apply welfare_is; auto.
      + apply (rd_welfare_at p v mu t (fun d => consumption (W d) t)); auto.
        * apply U.
        * intros q Hq. rewrite W_0. reflexivity.
        * intros q Hq. apply (rd_consumption p v W M' mp W_0 F NR PD NT Al W_feasible W_costs AFF DS MP t q Ht Hq).
    - unfold N', value_of_costs, discounted. fold disc.
      transitivity (steps_sum (fun t => - ((1 - sr p) * carbonprice v t0 r) * (disc t * (mu t r * income_lost p v mp t0 r t))
        + ((1 - sr p) * carbonprice v t0 s) * (disc t * (mu t s * income_lost p v mp t0 s t))) (tf p)).
      + apply steps_sum_ext. intros t _. unfold total. rewrite (Rsum_two _ (fun _ => 0) r s (regions p) ND Hr Hs NE).
        * rewrite !C'_lost, Rsum_const0. unfold weight. rewrite !String.eqb_refl. destruct (String.eqb_spec s r) as [X|_]; [exfalso; apply NE; auto|]. ring.
        * intros q _ N1 N2. rewrite C'_lost. unfold weight. destruct (String.eqb_spec q r); [contradiction|]. destruct (String.eqb_spec q s); [contradiction|]. ring.
      + rewrite steps_sum_lin. unfold disc. ring.
  Qed.
End Price.

(** With welfare as the objective: weighted with the welfare that a unit of costs takes, a region that could abate a little more never has a lower carbon
    price than a region that could abate a little less. *)
Lemma C70_weighted_price_order_pf : forall p v t r s mu mp, optimal p v -> objective p = utility -> trade p = notrade ->
  use_carbon_intensity p = false -> effort_regime p = noregime -> transfer p = notransfer ->
  numeric_ranges p -> sound_data p -> usable_choices p -> slr_logistic_ok p -> 0 <= alpha p < 1 -> sr p < 1 -> NoDup (regions p) ->
  (forall q, In q (regions p) -> 0 <= MAC_scaling p q) -> 0 <= MAC_gamma p -> rel_mitigation_costs_min_level p <= 0 ->
  (forall u q, model_step p u -> In q (regions p) -> 0 <= baseline_emissions p u q) ->
  (forall u q, (S u <= tf p)%nat -> In q (regions p) -> dt p * sr p * mitigation_costs v (S u) q < capital_stock v u q) ->
  (forall u q, (1 <= u <= tf p)%nat -> In q (regions p) -> damage_share p v u q <= 1) ->
  marginal_product p v mp -> marginal_welfare p v mu ->
  (1 <= t <= tf p)%nat -> In r (regions p) -> In s (regions p) -> 0 < baseline_emissions p t r -> 0 < baseline_emissions p t s ->
  can_abate_more p v t r -> can_abate_less p v t s ->
  carbonprice v t s * value_of_costs p v mu mp t s <= carbonprice v t r * value_of_costs p v mu mp t r.
Proof.
  intros p v t r s mu mp [F OPT] OB TR UC ER NT NR SD U SL Al S1 ND MS MG ML BE AFF DS MP MW Ht Hr Hs Er Es Rr Rs.
  destruct (string_dec r s) as [->|NE]; [lra|].
  pose proof (rd_objective p v t r s mu mp F NR SD U SL Al UC ER NT ND MS MG ML BE Ht Hr Hs NE Er Es Rr Rs TR AFF DS MP MW) as D.
  apply rd_nonpos in D.
  - unfold N' in D. assert (0 < 1 - sr p) by lra. nra.
  - eapply soonp_imp; [apply (W_feasible p v t r s F NR SD U SL Al UC ER NT ND MS MG ML BE Ht Hr Hs NE Er Es Rr Rs)|].
    intros d _ [Fd _]. rewrite W_0. apply (proj1 (C44_objective_direction_pf p v (W p v t r s d) F Fd) OB). apply OPT, Fd.
Qed.

(** So in regions in which no limit of the region itself is reached, prices are uniform once they are weighted with the welfare that a unit of costs takes. *)
Lemma C70_weighted_prices_equal_pf : forall p v t r s mu mp, optimal p v -> objective p = utility -> trade p = notrade ->
  use_carbon_intensity p = false -> effort_regime p = noregime -> transfer p = notransfer ->
  numeric_ranges p -> sound_data p -> usable_choices p -> slr_logistic_ok p -> 0 <= alpha p < 1 -> sr p < 1 -> NoDup (regions p) ->
  (forall q, In q (regions p) -> 0 <= MAC_scaling p q) -> 0 <= MAC_gamma p -> rel_mitigation_costs_min_level p <= 0 ->
  (forall u q, model_step p u -> In q (regions p) -> 0 <= baseline_emissions p u q) ->
  (forall u q, (S u <= tf p)%nat -> In q (regions p) -> dt p * sr p * mitigation_costs v (S u) q < capital_stock v u q) ->
  (forall u q, (1 <= u <= tf p)%nat -> In q (regions p) -> damage_share p v u q <= 1) ->
  marginal_product p v mp -> marginal_welfare p v mu ->
  (1 <= t <= tf p)%nat -> In r (regions p) -> In s (regions p) -> 0 < baseline_emissions p t r -> 0 < baseline_emissions p t s ->
  has_room p v t r -> has_room p v t s ->
  carbonprice v t r * value_of_costs p v mu mp t r = carbonprice v t s * value_of_costs p v mu mp t s.
Proof.
  intros p v t r s mu mp O OB TR UC ER NT NR SD U SL Al S1 ND MS MG ML BE AFF DS MP MW Ht Hr Hs Er Es [R1 R2] [Q1 Q2].
  apply Rle_antisym; [apply (C70_weighted_price_order_pf p v t s r mu mp)|apply (C70_weighted_price_order_pf p v t r s mu mp)]; auto.
Qed.

Lemma capital_lost_before p v mp t0 q t : (t < t0)%nat -> capital_lost p v mp t0 q t = 0.
Proof.
  induction t as [|t IH]; intros L; [reflexivity|]. cbn [capital_lost]. rewrite IH by lia. destruct (Nat.eqb_spec (S t) t0); [lia|]. unfold Rdiv. ring.
Qed.
(** In the last step the value is the marginal welfare of the step times a factor for the capital that the costs take away. *)
Lemma value_last p v mu mp q : (1 <= tf p)%nat -> 0 < 2 - survival p - dt p * sr p * net_product p v mp q (tf p) ->
  value_of_costs p v mu mp (tf p) q = dt p * exp (- PRTP p * (year p (tf p) - beginyear p)) * mu (tf p) q *
    ((2 - survival p) / (2 - survival p - dt p * sr p * net_product p v mp q (tf p))).
Proof.
  intros H1 D. unfold value_of_costs, discounted. destruct (tf p) as [|u] eqn:E; [lia|]. cbn [steps_sum].
  rewrite (steps_sum_ext _ (fun _ => 0 * 0 + 0 * 0)).
  - rewrite steps_sum_lin. unfold income_lost. rewrite Nat.eqb_refl. cbn [capital_lost]. rewrite Nat.eqb_refl, capital_lost_before by lia. field. lra.
  - intros t Ht. unfold income_lost. rewrite capital_lost_before by lia. destruct (Nat.eqb_spec t (S u)); [lia|]. ring.
Qed.
Lemma bump_total p (c : region -> R) q h : NoDup (regions p) -> In q (regions p) -> total p (fun r => if String.eqb r q then c r + h else c r) = total p c + h.
Proof.
  intros ND Hq. unfold total. rewrite (Rsum_ext _ (fun r => c r + 1 * (if String.eqb r q then h else 0))).
  - rewrite Rsum_plus, (bump_sum q h (regions p) (fun _ => 1) ND Hq). ring.
  - intros r _. destruct (String.eqb r q); ring.
Qed.
(** Minimising costs with equal weights: a unit of consumption is worth the same everywhere, and worth something. *)
Lemma equal_weights p v mu t q r : welfare p = cost_minimising -> elasmu p <> 1 -> NoDup (regions p) -> 0 < total p (population p t) -> marginal_welfare p v mu ->
  (1 <= t <= tf p)%nat -> In q (regions p) -> In r (regions p) -> mu t q = mu t r /\ 0 < mu t q.
Proof.
  intros CM N ND PP MW Ht Hq Hr. pose proof (MW t q Ht Hq) as A. pose proof (MW t r Ht Hr) as B.
  set (L := total p (population p t)) in *. set (x := total p (consumption v t) / L). set (u' := / (1 - elasmu p) * ((1 - elasmu p) * Rpower (smin 1 x) (1 - elasmu p - 1) * dsmin 1 x)).
  assert (G : forall a l, In a (regions p) -> derivable_pt_lim (fun h => welfare_of p t (fun r => if String.eqb r a then consumption v t r + h else consumption v t r)) 0 l -> l = u').
  { intros a l Ha D. apply (rd_unique _ _ _ (rd_deriv _ _ D)).
    apply (rd_same (fun h => L * utility_of (elasmu p) ((total p (consumption v t) + h) / L))).
    { intros h. unfold welfare_of. rewrite CM. rewrite (bump_total p (consumption v t) a h ND Ha). reflexivity. }
    apply rd_eq with (L * (u' * / L)); [|field; lra]. apply rd_scal.
    apply (rd_comp (fun h => (total p (consumption v t) + h) / L) (utility_of (elasmu p)) (/ L)).
    - apply rd_eq with (/ L * (0 + 1)); [|ring]. apply (rd_same (fun h => / L * (total p (consumption v t) + h))); [intros; unfold Rdiv; ring|].
      apply rd_scal, rd_plus; [apply rd_const|apply rd_id].
    - rewrite Rplus_0_r. apply utility_deriv, N. }
  rewrite (G q _ Hq A), (G r _ Hr B). split; [reflexivity|]. unfold u'. rewrite !Rmult_assoc, <- Rmult_assoc. rewrite Rinv_l, Rmult_1_l by lra.
  apply Rmult_lt_0_compat; [apply exp_pos|]. apply dsmin_pos. lra.
Qed.

(** In the last step of a plan that minimises costs with equal weights ("cost_minimising"), the prices of two such regions are equal only if their marginal
    products of capital (after damages) are; the price is lower where capital produces more, at most by the factor 1 - alpha. *)
Lemma C70_last_step_prices_pf : forall p v r s mp, optimal p v -> objective p = utility -> welfare p = cost_minimising -> trade p = notrade ->
  use_carbon_intensity p = false -> effort_regime p = noregime -> transfer p = notransfer ->
  numeric_ranges p -> sound_data p -> usable_choices p -> slr_logistic_ok p -> 0 <= alpha p < 1 -> sr p < 1 -> NoDup (regions p) ->
  (forall q, In q (regions p) -> 0 <= MAC_scaling p q) -> 0 <= MAC_gamma p -> rel_mitigation_costs_min_level p <= 0 ->
  (forall u q, model_step p u -> In q (regions p) -> 0 <= baseline_emissions p u q) ->
  (forall u q, (S u <= tf p)%nat -> In q (regions p) -> dt p * sr p * mitigation_costs v (S u) q < capital_stock v u q) ->
  (forall u q, (1 <= u <= tf p)%nat -> In q (regions p) -> damage_share p v u q <= 1) ->
  marginal_product p v mp -> (1 <= tf p)%nat ->
  In r (regions p) -> In s (regions p) -> 0 < baseline_emissions p (tf p) r -> 0 < baseline_emissions p (tf p) s ->
  has_room p v (tf p) r -> has_room p v (tf p) s ->
  let price q := carbonprice v (tf p) q in let product q := (1 - damage_share p v (tf p) q) * mp (tf p) q in
  price r * (2 - survival p - dt p * sr p * product s) = price s * (2 - survival p - dt p * sr p * product r) /\
  (1 - alpha p) * price s <= price r /\
  (0 < sr p -> 0 < price r -> (price r = price s <-> product r = product s) /\ (product s < product r -> price r < price s)).
Proof.
  intros p v r s mp O OB CM TR UC ER NT NR SD U SL Al S1 ND MS MG ML BE AFF DS MP T1 Hr Hs Er Es Rr Rs price product.
  assert (Ne : elasmu p <> 1) by apply U. destruct (marginal_welfare_exists p v Ne ND) as [mu MW].
  assert (Tr : (1 <= tf p <= tf p)%nat) by lia.
  pose proof (C70_weighted_prices_equal_pf p v (tf p) r s mu mp O OB TR UC ER NT NR SD U SL Al S1 ND MS MG ML BE AFF DS MP MW Tr Hr Hs Er Es Rr Rs) as E.
  assert (PD : positive_data p) by apply SD.
  assert (PT : 0 < total p (population p (tf p))).
  { apply Rsum_pos; [apply SD|]. intros q Hq. destruct (PD q Hq) as [_ D]. apply (D (tf p)). unfold model_step. lia. }
  assert (FR : forall q, In q (regions p) -> 0 <= dt p * sr p * product q <= alpha p * (2 - survival p) /\ 0 < 2 - survival p - dt p * sr p * product q).
  { intros q Hq. assert (X : exists u, tf p = S u) by (exists (Nat.pred (tf p)); lia). destruct X as [u Eu].
    pose proof (factor_range p v mp (proj1 O) NR PD NT Al AFF DS MP u q ltac:(lia) Hq) as Q. unfold net_product in Q. rewrite <- Eu in Q. exact Q. }
  destruct (FR r Hr) as [[G1 G2] G3]. destruct (FR s Hs) as [[H1 H2] H3].
  rewrite (value_last p v mu mp r T1 G3), (value_last p v mu mp s T1 H3) in E.
  destruct (equal_weights p v mu (tf p) r s CM Ne ND PT MW Tr Hr Hs) as [EW PW]. rewrite <- EW in E.
  change (net_product p v mp r (tf p)) with (product r) in E. change (net_product p v mp s (tf p)) with (product s) in E.
  fold (price r) (price s) in E.
  set (x := dt p * sr p * product r) in *. set (y := dt p * sr p * product s) in *.
  destruct NR as (Hdt & Hk & Hsr & _). destruct (surv_range p Hdt Hk) as [_ [S0 S1']]. set (z := 2 - survival p) in *. assert (Hz : 1 <= z) by (unfold z; lra).
  set (k := dt p * exp (- PRTP p * (year p (tf p) - beginyear p)) * mu (tf p) r) in *.
  assert (Pk : 0 < k) by (unfold k; apply Rmult_lt_0_compat; [apply Rmult_lt_0_compat; [exact Hdt|apply exp_pos]|exact PW]).
  assert (EQ : price r * (z - y) = price s * (z - x)).
  { apply (Rmult_eq_reg_l (k * z / ((z - x) * (z - y)))).
    - transitivity (price r * (k * (z / (z - x)))); [field; lra|]. rewrite E. field. lra.
    - apply Rgt_not_eq. apply Rdiv_lt_0_compat; apply Rmult_lt_0_compat; lra. }
  split; [exact EQ|].
  assert (P0 : 0 <= price s) by (apply (q_bounds_r p v (proj1 O) (tf p) s); [unfold model_step; lia|exact Hs]).
  split.
  - apply (Rmult_le_reg_r (z - y)); [lra|]. rewrite EQ. assert (price s * ((1 - alpha p) * (z - y)) <= price s * (z - x)) by (apply Rmult_le_compat_l; [exact P0|nra]). lra.
  - intros HS PR. assert (KP : 0 < dt p * sr p) by (apply Rmult_lt_0_compat; lra). split.
    + split; intros Q.
      * rewrite <- Q in EQ. assert (x = y) by nra. unfold x, y in H. apply (Rmult_eq_reg_l (dt p * sr p)); [exact H|lra].
      * unfold x, y in EQ. rewrite Q in EQ. apply (Rmult_eq_reg_r (z - dt p * sr p * product s)); [exact EQ|unfold y in H3; lra].
    + intros L. assert (y < x) by (unfold x, y; apply Rmult_lt_compat_l; lra). nra.
Qed.
