(** C70: carbon prices at plans of least cost. *)
From Coq Require Import Reals List String Lra Lia.
From Verif Require Import ModelFacts SoftFacts ModelSpec PowFacts Equations Equations2 Build VarFacts EconLemmas BuildFacts BuildLemmas DefinedFacts
  SolveFacts ClimateSpec ClimateLemmas WelfareSpec WelfareLemmas MitigationLemmas TradeLemmas PolicySpec PolicyLemmas Simulate SimFacts ExistSpec ExistFacts ExistLemmas ReallocateSpec Reallocate Exchange.
Import ListNotations.
Open Scope R_scope.
Set Bullet Behavior "Strict Subproofs".

(** The first-order condition *)
Lemma rising_start f l : derivable_pt_lim f 0 l -> soon (fun d => f 0 <= f d) -> 0 <= l.
Proof.
  intros D (e & He & H). destruct (Rle_lt_dec 0 l) as [L|L]; [exact L|exfalso].
  destruct (D (- l) ltac:(lra)) as (g & Hg). pose proof (cond_pos g) as G. set (h := Rmin e g / 2).
  assert (M : 0 < Rmin e g) by (apply Rmin_glb_lt; auto). pose proof (Rmin_l e g). pose proof (Rmin_r e g).
  assert (Hh : 0 < h) by (unfold h; lra). assert (Hg1 : Rabs h < g) by (rewrite Rabs_right; unfold h in *; lra).
  specialize (Hg h ltac:(lra) Hg1). rewrite Rplus_0_l in Hg. apply Rabs_def2 in Hg. destruct Hg as [Hg _].
  assert (Q : (f h - f 0) / h < 0) by lra. assert (P : f 0 <= f h) by (apply H; unfold h in *; lra).
  assert (0 <= (f h - f 0) / h) by (apply Rmult_le_pos; [lra|left; apply Rinv_0_lt_compat; exact Hh]). lra.
Qed.
Lemma discounted_differs p x y t0 t : (1 <= t0 <= t)%nat -> (forall s, (1 <= s <= t)%nat -> s <> t0 -> x s = y s) ->
  discounted p x t - discounted p y t = dt p * exp (- PRTP p * (year p t0 - beginyear p)) * (x t0 - y t0).
Proof.
  intros Ht E. unfold discounted. induction t as [|t IH]; [lia|]. cbn [steps_sum]. destruct (Nat.eq_dec t0 (S t)) as [->|N].
  - assert (Q : steps_sum (fun s => dt p * exp (- PRTP p * (year p s - beginyear p)) * x s) t = steps_sum (fun s => dt p * exp (- PRTP p * (year p s - beginyear p)) * y s) t).
    { apply steps_sum_ext. intros s Hs. rewrite (E s) by lia. reflexivity. }
    rewrite Q. ring.
  - rewrite (E (S t)) by lia. assert (I : (1 <= t0 <= t)%nat) by lia. specialize (IH I ltac:(intros s Hs Ns; apply E; lia)). lra.
Qed.

(** Where the objective counts costs and there are no damages: a region that could abate a little more never has a lower carbon price than a region
    that could abate a little less. *)
Lemma C70_price_order_pf : forall p v t r s, optimal p v -> objective p = globalcosts -> dmg_module p = nodamage ->
  use_carbon_intensity p = false -> effort_regime p = noregime -> transfer p = notransfer ->
  numeric_ranges p -> sound_data p -> usable_choices p -> 0 <= alpha p < 1 -> NoDup (regions p) ->
  (forall q, In q (regions p) -> 0 <= MAC_scaling p q) -> 0 <= MAC_gamma p -> rel_mitigation_costs_min_level p <= 0 ->
  (forall u q, model_step p u -> In q (regions p) -> 0 <= baseline_emissions p u q) ->
  (1 <= t <= tf p)%nat -> In r (regions p) -> In s (regions p) -> 0 < baseline_emissions p t r -> 0 < baseline_emissions p t s ->
  can_abate_more p v t r -> can_abate_less p v t s -> carbonprice v t s <= carbonprice v t r.
Proof.
  intros p v t r s [F OPT] OB DM UC ER NT NR SD U Al ND MS MG ML BE Ht Hr Hs Er Es Rr Rs.
  destruct (string_dec r s) as [->|NE]; [lra|].
  assert (SL : slr_logistic_ok p) by (unfold slr_logistic_ok; rewrite DM; discriminate).
  assert (HD : 0 < dt p) by apply NR.
  set (f := fun d => cost_of p v t r (/ baseline_emissions p t r * d) + cost_of p v t s (- / baseline_emissions p t s * d)).
  assert (Df : derivable_pt_lim f 0 (carbonprice v t r - carbonprice v t s)).
  { replace (carbonprice v t r - carbonprice v t s) with (carbonprice v t r * (baseline_emissions p t r * / baseline_emissions p t r) + carbonprice v t s * (baseline_emissions p t s * - / baseline_emissions p t s)) by (field; lra).
    apply derivable_pt_lim_plus; apply cost_deriv; auto. }
  assert (Ir : 0 <= / baseline_emissions p t r) by (left; apply Rinv_0_lt_compat; exact Er).
  assert (Is : 0 <= / baseline_emissions p t s) by (left; apply Rinv_0_lt_compat; exact Es).
  assert (N : soon (fun d => f 0 <= f d)).
  { eapply soon_imp; [apply soon_and; [apply (fits_more p v t F NR Ht r (/ baseline_emissions p t r) Hr Rr Ir); lra|
      apply (fits_less p v t F NR Ht s (/ baseline_emissions p t s) Hs Rs Is); [lra|auto|exact MG]]|].
    intros d _ [F1 F2].
    assert (Fr : fits p v t r (d / baseline_emissions p t r)) by (unfold Rdiv; rewrite Rmult_comm; exact F1).
    assert (Fs : fits p v t s (- (d / baseline_emissions p t s))) by (unfold Rdiv; replace (- (d * / baseline_emissions p t s)) with (- / baseline_emissions p t s * d) by ring; exact F2).
    pose proof (shifted_feasible p v t r s F NR SD U SL Al UC ER NT ND MS MG ML BE Ht Hr Hs NE Er Es d Fr Fs) as Fw.
    pose proof (fun u q => cost_w p v t r s F NR SD U SL Al UC ER NT ND MS MG ML BE Ht Hr Hs NE Er Es Rr Rs d u q Fr Fs) as CW.
    set (w := sim p _ _ _) in *.
    pose proof (proj1 (proj2 (C44_objective_direction_pf p v w F Fw) OB) (OPT w Fw)) as LE. cbv beta zeta in LE.
    assert (Z : forall x u, feasible p x -> model_step p u -> total p (fun q => damage_costs x u q * GDP_gross x u q) = 0).
    { intros x u Fx Mu. unfold total. rewrite (Rsum_ext _ (fun _ => 0)); [apply Rsum_const0|]. intros q Hq. unfold damage_costs. rewrite (q_nodamage p x Fx u q DM Mu Hq). ring. }
    assert (TV : forall u, (1 <= u <= tf p)%nat -> total p (mitigation_costs v u) = total p (area_under_MAC v u)).
    { intros u Hu. destruct (trade p) eqn:TR.
      - apply Rsum_ext. intros q Hq. apply (C35_notrade_own_costs_pf p v u q F TR); auto. unfold model_step; lia.
      - exfalso. apply (proj1 U). exact TR.
      - apply (C33_trade_zero_sum_pf p v u F TR). unfold model_step; lia. }
    pose proof (discounted_differs p (fun u => total p (mitigation_costs w u) + total p (fun q => damage_costs w u q * GDP_gross w u q))
      (fun u => total p (mitigation_costs v u) + total p (fun q => damage_costs v u q * GDP_gross v u q)) t (tf p) Ht) as DD.
    assert (SAME : forall u, (1 <= u <= tf p)%nat -> u <> t -> total p (mitigation_costs w u) = total p (mitigation_costs v u)).
    { intros u Hu Nu. rewrite (TV u Hu). apply Rsum_ext. intros q Hq. rewrite (CW u q Hu Hq). destruct (Nat.eqb_spec u t); [contradiction|reflexivity]. }
    assert (DD' := DD ltac:(intros u Hu Nu; assert (Mu : model_step p u) by (unfold model_step; lia); cbv beta; rewrite (Z w u Fw Mu), (Z v u F Mu), (SAME u Hu Nu); reflexivity)). clear DD. cbv beta in DD'.
    assert (Mt : model_step p t) by (unfold model_step; lia). rewrite (Z w t Fw Mt), (Z v t F Mt), (TV t Ht) in DD'.
    assert (PE : 0 < dt p * exp (- PRTP p * (year p t - beginyear p))) by (apply Rmult_lt_0_compat; [exact HD|apply exp_pos]).
    assert (GE : total p (area_under_MAC v t) <= total p (mitigation_costs w t)).
    { apply Rmult_le_reg_l with (1 := PE). lra. }
    unfold total in GE. rewrite (Rsum_two (mitigation_costs w t) (area_under_MAC v t) r s (regions p) ND Hr Hs NE) in GE.
    - rewrite (CW t r Ht Hr), (CW t s Ht Hs), Nat.eqb_refl in GE. unfold f.
      rewrite (change_r p t r s d), (change_s p t r s NE d) in GE.
      rewrite (cost_v p v F NR UC t r Mt Hr), (cost_v p v F NR UC t s Mt Hs) in GE.
      replace (/ baseline_emissions p t r * d) with (d / baseline_emissions p t r) by (unfold Rdiv; ring). replace (- / baseline_emissions p t s * d) with (- (d / baseline_emissions p t s)) by (unfold Rdiv; ring).
      unfold cost_of at 1 2. rewrite !Rmult_0_r, !Rplus_0_r. unfold ac in GE. lra.
    - intros q Hq N1 N2. rewrite (CW t q Ht Hq), Nat.eqb_refl. rewrite (change_other p t r s d t q) by tauto.
      rewrite (cost_v p v F NR UC t q Mt Hq). unfold cost_of, ac. rewrite Rplus_0_r. ring. }
  pose proof (rising_start f _ Df N). lra.
Qed.

(** So the carbon price is the same in any two regions in which no limit of the region itself is reached. *)
Lemma C70_uniform_carbon_price_pf : forall p v t r s, optimal p v -> objective p = globalcosts -> dmg_module p = nodamage ->
  use_carbon_intensity p = false -> effort_regime p = noregime -> transfer p = notransfer ->
  numeric_ranges p -> sound_data p -> usable_choices p -> 0 <= alpha p < 1 -> NoDup (regions p) ->
  (forall q, In q (regions p) -> 0 <= MAC_scaling p q) -> 0 <= MAC_gamma p -> rel_mitigation_costs_min_level p <= 0 ->
  (forall u q, model_step p u -> In q (regions p) -> 0 <= baseline_emissions p u q) ->
  (1 <= t <= tf p)%nat -> In r (regions p) -> In s (regions p) -> 0 < baseline_emissions p t r -> 0 < baseline_emissions p t s ->
  has_room p v t r -> has_room p v t s -> carbonprice v t r = carbonprice v t s.
Proof.
  intros p v t r s O OB DM UC ER NT NR SD U Al ND MS MG ML BE Ht Hr Hs Er Es [R1 R2] [S1 S2].
  apply Rle_antisym; [apply (C70_price_order_pf p v t s r)|apply (C70_price_order_pf p v t r s)]; auto.
Qed.
