(** C70: how capital, consumption and welfare respond to small changes of costs. *)
From Coq Require Import Reals List String Lra Lia.
From Verif Require Import ModelFacts SoftFacts ModelSpec PowFacts Equations Equations2 Build VarFacts EconLemmas BuildFacts BuildLemmas DefinedFacts
  SolveFacts ClimateSpec ClimateLemmas WelfareSpec WelfareLemmas MitigationLemmas TradeLemmas PolicySpec PolicyLemmas Simulate SimFacts ExistSpec ExistFacts ExistLemmas
  DominanceSpec DominanceLemmas ReallocateSpec ShadowSpec RightDeriv.
Import ListNotations.
Open Scope R_scope.
Set Bullet Behavior "Strict Subproofs".

Lemma income_eq p v t r : feasible p v -> (0 < t <= tf p)%nat -> In r (regions p) -> transfer p = notransfer ->
  GDP_net v t r = (1 - damage_share p v t r) * production p t r (capital_stock v t r) - mitigation_costs v t r.
Proof.
  intros F Ht Hr NT. unfold GDP_net. rewrite (q_GDP_net p v F) by (auto; lia). rewrite transfer_deno. unfold transfer_paid. rewrite NT.
  rewrite (q_GDP_gross p v F) by auto. unfold production, damage_share, damage_costs, mitigation_costs, capital_stock. ring.
Qed.
Lemma capital_eq p v t r : feasible p v -> (S t <= tf p)%nat -> In r (regions p) -> transfer p = notransfer -> 0 < dt p -> 0 <= dk p < 1 ->
  (2 - survival p) * capital_stock v (S t) r =
  (capital_stock v t r - dt p * sr p * mitigation_costs v (S t) r) + dt p * sr p * (1 - damage_share p v (S t) r) * production p (S t) r (capital_stock v (S t) r).
Proof.
  intros F Ht Hr NT Hdt Hk. pose proof (capital_closed p v t r F Ht Hr Hdt Hk) as E.
  unfold investments in E. rewrite (q_investments p v F) in E by (auto; lia). pose proof (income_eq p v (S t) r F ltac:(lia) Hr NT) as I. unfold GDP_net in I. rewrite I in E. lra.
Qed.
Lemma consumption_eq p v t r : feasible p v -> model_step p t -> In r (regions p) -> consumption v t r = (1 - sr p) * GDP_net v t r.
Proof. intros F Ht Hr. unfold consumption, GDP_net. apply (q_consumption p v F); auto. Qed.
Lemma production_power p t r x : production p t r x = TFP p t r * pypow (population p t r) (1 - alpha p) * Rpower (smin 10 x) (alpha p).
Proof. unfold production. rewrite (pypow_pos (smin 10 x)) by (apply smin_pos; lra). reflexivity. Qed.

Section Family.
  Variables (p : pars) (v : point) (W : R -> point) (M' : nat -> region -> R) (mp : nat -> region -> R).
  Hypotheses (W0 : W 0 = v) (F : feasible p v) (NR : numeric_ranges p) (PD : positive_data p) (NT : transfer p = notransfer) (Al : 0 <= alpha p < 1).
  Hypothesis FW : soonp (fun d => feasible p (W d) /\ forall t q, model_step p t -> In q (regions p) -> damage_share p (W d) t q = damage_share p v t q).
  Hypothesis MC : forall t q, (1 <= t <= tf p)%nat -> In q (regions p) -> rd (fun d => mitigation_costs (W d) t q) (M' t q).
  Hypothesis AFF : forall t q, (S t <= tf p)%nat -> In q (regions p) -> dt p * sr p * mitigation_costs v (S t) q < capital_stock v t q.
  Hypothesis DS : forall t q, (1 <= t <= tf p)%nat -> In q (regions p) -> damage_share p v t q <= 1.
  Hypothesis MP : marginal_product p v mp.
  Fixpoint K' (q : region) (t : nat) : R :=
    match t with
    | O => 0
    | S u => (K' q u - dt p * sr p * M' (S u) q) / (2 - survival p - dt p * sr p * net_product p v mp q (S u))
    end.
  Lemma scale_nonneg t q : (1 <= t <= tf p)%nat -> In q (regions p) ->
    0 <= dt p * sr p * (1 - damage_share p v t q) * (TFP p t q * pypow (population p t q) (1 - alpha p)).
  Proof.
    intros Ht Hq. destruct NR as (Hdt & Hk & Hs & _). specialize (DS t q Ht Hq). destruct (PD q Hq) as [_ D].
    destruct (D t ltac:(unfold model_step; lia)) as [P _].
    assert (0 < TFP p t q) by (apply TFP_pos; auto; unfold model_step; lia). assert (0 < pypow (population p t q) (1 - alpha p)) by (apply pypow_pos_pos; auto).
    apply Rmult_le_pos; [apply Rmult_le_pos; [apply Rmult_le_pos; lra|lra]|]. apply Rlt_le, Rmult_lt_0_compat; auto.
  Qed.
  Definition kept (t : nat) (q : region) (x : R) : R := dt p * sr p * (1 - damage_share p v t q) * production p t q x.
  Lemma kept_power t q x : kept t q x = dt p * sr p * (1 - damage_share p v t q) * (TFP p t q * pypow (population p t q) (1 - alpha p)) * Rpower (smin 10 x) (alpha p).
  Proof. unfold kept. rewrite production_power. ring. Qed.
  Lemma kept_deriv t q : (1 <= t <= tf p)%nat -> In q (regions p) -> derivable_pt_lim (kept t q) (capital_stock v t q) (dt p * sr p * net_product p v mp q t).
  Proof.
    intros Ht Hq. unfold kept, net_product. rewrite <- Rmult_assoc. apply (derivable_pt_lim_scal (production p t q)). apply MP; auto.
  Qed.
  Lemma factor_range t q : (S t <= tf p)%nat -> In q (regions p) -> 0 <= dt p * sr p * net_product p v mp q (S t) <= alpha p * (2 - survival p) /\
    0 < 2 - survival p - dt p * sr p * net_product p v mp q (S t).
  Proof.
    intros Ht Hq. destruct NR as (Hdt & Hk & Hs & _). destruct (surv_range p Hdt Hk) as [_ [S0 S1]].
    pose proof (capital_eq p v t q F Ht Hq NT Hdt Hk) as E. pose proof (kept_deriv (S t) q ltac:(lia) Hq) as D.
    fold (kept (S t) q (capital_stock v (S t) q)) in E. rewrite kept_power in E.
    destruct (slope_below (2 - survival p) (capital_stock v t q - dt p * sr p * mitigation_costs v (S t) q) _ (alpha p) (capital_stock v (S t) q)
      (dt p * sr p * net_product p v mp q (S t)) ltac:(lra) Al (scale_nonneg (S t) q ltac:(lia) Hq) ltac:(pose proof (AFF t q Ht Hq); lra) E) as (_ & A & B); [|split; auto].
    eapply derivable_pt_lim_ext; [|exact D]. intros x. cbv beta. rewrite kept_power. reflexivity.
  Qed.
  Lemma rd_capital q t : In q (regions p) -> model_step p t -> rd (fun d => capital_stock (W d) t q) (K' q t).
  Proof.
    intros Hq. destruct NR as (Hdt & Hk & Hs & _). destruct (surv_range p Hdt Hk) as [_ [S0 S1]]. induction t as [|t IH]; intros Ht.
    - apply (rd_ext (fun _ => capital_stock v 0 q)); [rewrite W0; reflexivity| |apply rd_const].
      eapply soonp_imp; [exact FW|]. intros d _ [Fd _]. unfold capital_stock. rewrite (q_capital0 p v F), (q_capital0 p (W d) Fd) by auto. reflexivity.
    - unfold model_step in *. specialize (IH ltac:(lia)). cbn [K'].
      apply (rd_implicit (2 - survival p) (fun d => capital_stock (W d) t q - dt p * sr p * mitigation_costs (W d) (S t) q) (fun d => capital_stock (W d) (S t) q) (kept (S t) q)
        (dt p * sr p * (1 - damage_share p v (S t) q) * (TFP p (S t) q * pypow (population p (S t) q) (1 - alpha p))) (alpha p)).
      + lra.
      + lra.
      + apply scale_nonneg; [lia|auto].
      + rewrite W0. specialize (AFF t q Ht Hq). lra.
      + apply rd_minus; [exact IH|]. apply (rd_scal (dt p * sr p)). apply MC; [lia|auto].
      + apply kept_power.
      + rewrite W0. apply kept_deriv; [lia|auto].
      + rewrite W0. apply capital_eq; auto.
      + eapply soonp_imp; [exact FW|]. intros d _ [Fd Dd]. cbv beta. rewrite (capital_eq p (W d) t q Fd Ht Hq NT Hdt Hk). unfold kept. rewrite (Dd (S t) q Ht Hq). reflexivity.
      + apply factor_range; auto.
  Qed.
  Definition C' (t : nat) (q : region) : R := (1 - sr p) * (net_product p v mp q t * K' q t - M' t q).
  Lemma rd_consumption t q : (1 <= t <= tf p)%nat -> In q (regions p) -> rd (fun d => consumption (W d) t q) (C' t q).
  Proof.
    intros Ht Hq. assert (Mt : model_step p t) by (unfold model_step; lia).
    apply (rd_ext (fun d => (1 - sr p) * ((1 - damage_share p v t q) * production p t q (capital_stock (W d) t q) - mitigation_costs (W d) t q))).
    - rewrite W0, (consumption_eq p v t q F Mt Hq), (income_eq p v t q F ltac:(lia) Hq NT). reflexivity.
    - eapply soonp_imp; [exact FW|]. intros d _ [Fd Dd]. rewrite (consumption_eq p (W d) t q Fd Mt Hq), (income_eq p (W d) t q Fd ltac:(lia) Hq NT), (Dd t q Mt Hq). reflexivity.
    - unfold C'. apply rd_scal. apply rd_minus; [|apply MC; auto]. unfold net_product. rewrite Rmult_assoc. apply rd_scal.
      apply (rd_comp (fun d => capital_stock (W d) t q) (production p t q)); [apply rd_capital; auto|]. rewrite W0. apply MP; auto.
  Qed.
End Family.

(** Welfare along a path of consumption *)
Lemma utility_deriv eta x : eta <> 1 -> derivable_pt_lim (utility_of eta) x (/ (1 - eta) * ((1 - eta) * Rpower (smin 1 x) (1 - eta - 1) * dsmin 1 x)).
Proof.
  intros N. apply (derivable_pt_lim_ext (fun y => / (1 - eta) * (Rpower (smin 1 y) (1 - eta) - 1))); [intros; unfold utility_of, Rdiv; ring|].
  apply (derivable_pt_lim_scal (fun y => Rpower (smin 1 y) (1 - eta) - 1)).
  replace ((1 - eta) * Rpower (smin 1 x) (1 - eta - 1) * dsmin 1 x) with ((1 - eta) * Rpower (smin 1 x) (1 - eta - 1) * dsmin 1 x - 0) by ring.
  apply (derivable_pt_lim_minus (fun y => Rpower (smin 1 y) (1 - eta)) (fun _ => 1)); [|apply derivable_pt_lim_const].
  apply (derivable_pt_lim_comp (smin 1) (fun y => Rpower y (1 - eta)) x); [apply smin_deriv; lra|apply derivable_pt_lim_power, smin_pos; lra].
Qed.
Lemma smin_power_deriv b x : derivable_pt_lim (fun y => Rpower (smin 1 y) b) x (b * Rpower (smin 1 x) (b - 1) * dsmin 1 x).
Proof. apply (derivable_pt_lim_comp (smin 1) (fun y => Rpower y b) x); [apply smin_deriv; lra|apply derivable_pt_lim_power, smin_pos; lra]. Qed.

(** Marginal welfare has a weight for every region, which gives the response to every change of consumption. *)
Lemma rd_welfare p t (c0 : region -> R) : elasmu p <> 1 -> exists mu, forall (c : R -> region -> R) c', (forall q, In q (regions p) -> c 0 q = c0 q) ->
  (forall q, In q (regions p) -> rd (fun d => c d q) (c' q)) -> rd (fun d => welfare_of p t (c d)) (total p (fun q => mu q * c' q)).
Proof.
  intros N. unfold welfare_of. destruct (welfare p).
  - exists (fun q => population p t q * (/ (1 - elasmu p) * ((1 - elasmu p) * Rpower (smin 1 (c0 q / population p t q)) (1 - elasmu p - 1) * dsmin 1 (c0 q / population p t q))) * / population p t q).
    intros c c' E0 C. unfold total. apply rd_sum. intros q Hq. eapply rd_eq; [apply rd_scal; apply (rd_comp (fun d => c d q / population p t q) (utility_of (elasmu p)) (/ population p t q * c' q))|].
    + apply (rd_same (fun d => / population p t q * c d q)); [intros; unfold Rdiv; ring|]. apply rd_scal, C, Hq.
    + rewrite (E0 q Hq). apply utility_deriv, N.
    + ring.
  - set (L := total p (population p t)).
    exists (fun q => L * (/ (1 - elasmu p) * ((1 - elasmu p) * Rpower (smin 1 (total p c0 / L)) (1 - elasmu p - 1) * dsmin 1 (total p c0 / L))) * / L).
    intros c c' E0 C. eapply rd_eq; [apply rd_scal; apply (rd_comp (fun d => total p (c d) / L) (utility_of (elasmu p)) (/ L * total p c'))|].
    + apply (rd_same (fun d => / L * total p (c d))); [intros; unfold Rdiv; ring|]. apply rd_scal. unfold total. apply rd_sum. exact C.
    + replace (total p (c 0)) with (total p c0) by (apply Rsum_ext; intros; symmetry; auto). apply utility_deriv, N.
    + unfold total at 4. rewrite Rsum_scal. unfold total. ring.
  - set (L := total p (population p t)). set (b := (1 - elasmu p) / (1 - inequal_aversion p)). set (i := 1 - inequal_aversion p).
    set (g := fun q => population p t q * (i * Rpower (smin 1 (c0 q / population p t q)) (i - 1) * dsmin 1 (c0 q / population p t q)) * / population p t q).
    set (X := total p (fun q => population p t q * Rpower (smin 1 (c0 q / population p t q)) i) / L).
    exists (fun q => L * (/ (1 - elasmu p) * (b * Rpower (smin 1 X) (b - 1) * dsmin 1 X)) * / L * g q).
    intros c c' E0 C. eapply rd_eq; [apply rd_scal;
      apply (rd_comp (fun d => total p (fun q => population p t q * Rpower (smin 1 (c d q / population p t q)) i) / L) (fun y => Rpower (smin 1 y) b / (1 - elasmu p)) (/ L * total p (fun q => g q * c' q)))|].
    + apply (rd_same (fun d => / L * total p (fun q => population p t q * Rpower (smin 1 (c d q / population p t q)) i))); [intros; unfold Rdiv; ring|]. apply rd_scal. unfold total. apply rd_sum.
      intros q Hq. eapply rd_eq; [apply rd_scal; apply (rd_comp (fun d => c d q / population p t q) (fun y => Rpower (smin 1 y) i) (/ population p t q * c' q))|].
      * apply (rd_same (fun d => / population p t q * c d q)); [intros; unfold Rdiv; ring|]. apply rd_scal, C, Hq.
      * rewrite (E0 q Hq). apply smin_power_deriv.
      * unfold g. ring.
    + replace (total p (fun q => population p t q * Rpower (smin 1 (c 0 q / population p t q)) i) / L) with X.
      * apply (derivable_pt_lim_ext (fun y => / (1 - elasmu p) * Rpower (smin 1 y) b)); [intros; unfold Rdiv; ring|]. apply (derivable_pt_lim_scal (fun y => Rpower (smin 1 y) b)), smin_power_deriv.
      * unfold X. f_equal. apply Rsum_ext. intros q Hq. rewrite (E0 q Hq). reflexivity.
    + set (k := L * (/ (1 - elasmu p) * (b * Rpower (smin 1 X) (b - 1) * dsmin 1 X)) * / L).
      transitivity (total p (fun q => k * (g q * c' q))); [unfold total; rewrite Rsum_scal; unfold k; ring|].
      apply Rsum_ext. intros q _. unfold k. ring.
Qed.

Lemma bump_sum (q : region) x l (mu : region -> R) : NoDup l -> In q l -> Rsum (fun r => mu r * (if String.eqb r q then x else 0)) l = mu q * x.
Proof.
  intros ND Hq. rewrite (Rsum_ext _ (fun r => if String.eqb r q then mu q * x else 0)).
  - induction l as [|a l IH]; [destruct Hq|]. inversion ND as [|? ? NI ND']; subst. rewrite Rsum_cons. destruct (String.eqb_spec a q) as [->|N].
    + rewrite (Rsum_ext _ (fun _ => 0)); [rewrite Rsum_const0; lra|]. intros b Hb. destruct (String.eqb_spec b q) as [->|_]; [contradiction|reflexivity].
    + destruct Hq as [Hq|Hq]; [exfalso; apply N; auto|]. rewrite IH by auto. lra.
  - intros r _. destruct (String.eqb_spec r q) as [->|_]; lra.
Qed.
Lemma rd_welfare_at p v mu t (c : R -> region -> R) c' : elasmu p <> 1 -> NoDup (regions p) -> marginal_welfare p v mu -> (1 <= t <= tf p)%nat ->
  (forall q, In q (regions p) -> c 0 q = consumption v t q) -> (forall q, In q (regions p) -> rd (fun d => c d q) (c' q)) ->
  rd (fun d => welfare_of p t (c d)) (total p (fun q => mu t q * c' q)).
Proof.
  intros N ND MW Ht E0 C. destruct (rd_welfare p t (consumption v t) N) as [nu H].
  assert (E : forall q, In q (regions p) -> nu q = mu t q).
  { intros q Hq. apply (rd_unique (fun h => welfare_of p t (fun r => if String.eqb r q then consumption v t r + h else consumption v t r))).
    - eapply rd_eq; [apply (H (fun h r => if String.eqb r q then consumption v t r + h else consumption v t r) (fun r => if String.eqb r q then 1 else 0))|].
      + intros r _. destruct (String.eqb r q); lra.
      + intros r _. destruct (String.eqb r q); [|apply rd_const]. apply rd_eq with (0 + 1); [|ring]. apply rd_plus; [apply rd_const|apply rd_id].
      + unfold total. rewrite (bump_sum q 1 (regions p) nu ND Hq). ring.
    - apply rd_deriv, MW; auto. }
  eapply rd_eq; [apply (H c c' E0 C)|]. apply Rsum_ext. intros q Hq. rewrite (E q Hq). reflexivity.
Qed.
(** The marginal product of capital and marginal welfare exist for every plan. *)
Lemma marginal_product_exists p v : exists mp, marginal_product p v mp.
Proof.
  exists (fun t q => TFP p t q * pypow (population p t q) (1 - alpha p) * (alpha p * Rpower (smin 10 (capital_stock v t q)) (alpha p - 1) * dsmin 10 (capital_stock v t q))).
  intros t q _ _. apply (derivable_pt_lim_ext (fun x => TFP p t q * pypow (population p t q) (1 - alpha p) * Rpower (smin 10 x) (alpha p))); [intros; rewrite production_power; reflexivity|].
  apply (derivable_pt_lim_scal (fun x => Rpower (smin 10 x) (alpha p))).
  apply (derivable_pt_lim_comp (smin 10) (fun y => Rpower y (alpha p))); [apply smin_deriv; lra|apply derivable_pt_lim_power, smin_pos; lra].
Qed.
Lemma two_sided f l : rd f l -> rd (fun d => f (- d)) (- l) -> derivable_pt_lim f 0 l.
Proof.
  intros A B eps He. destruct (soonp_and _ _ (A (eps / 2) ltac:(lra)) (B (eps / 2) ltac:(lra))) as (e & E0 & H). exists (mkposreal e E0). intros h N Lh. cbn in Lh. rewrite Rplus_0_l.
  assert (X : Rabs (f h - f 0 - l * h) <= eps / 2 * Rabs h).
  { destruct (Rlt_le_dec 0 h) as [P|P].
    - rewrite Rabs_right in Lh by lra. rewrite (Rabs_right h) by lra. apply (H h). lra.
    - rewrite Rabs_left in Lh by lra. rewrite (Rabs_left h) by lra. destruct (H (- h) ltac:(lra)) as [_ Q]. rewrite Ropp_involutive, Ropp_0 in Q.
      replace (f h - f 0 - l * h) with (f h - f 0 - - l * - h) by ring. exact Q. }
  replace ((f h - f 0) / h - l) with ((f h - f 0 - l * h) / h) by (field; exact N). unfold Rdiv. rewrite Rabs_mult, Rabs_inv.
  assert (Ph : 0 < Rabs h) by (apply Rabs_pos_lt; exact N).
  apply Rle_lt_trans with (eps / 2 * Rabs h * / Rabs h); [apply Rmult_le_compat_r; [left; apply Rinv_0_lt_compat; exact Ph|exact X]|].
  rewrite Rmult_assoc, Rinv_r, Rmult_1_r by lra. lra.
Qed.
Lemma marginal_welfare_exists p v : elasmu p <> 1 -> NoDup (regions p) -> exists mu, marginal_welfare p v mu.
Proof.
  intros N ND. assert (X : forall t, exists mu, forall q, In q (regions p) -> derivable_pt_lim (fun h => welfare_of p t (fun r => if String.eqb r q then consumption v t r + h else consumption v t r)) 0 (mu q)).
  { intros t. destruct (rd_welfare p t (consumption v t) N) as [nu H]. exists nu. intros q Hq. apply two_sided.
    - eapply rd_eq; [apply (H (fun h r => if String.eqb r q then consumption v t r + h else consumption v t r) (fun r => if String.eqb r q then 1 else 0))|].
      + intros r _. destruct (String.eqb r q); lra.
      + intros r _. destruct (String.eqb r q); [|apply rd_const]. apply rd_eq with (0 + 1); [|ring]. apply rd_plus; [apply rd_const|apply rd_id].
      + unfold total. rewrite (bump_sum q 1 (regions p) nu ND Hq). ring.
    - eapply rd_eq; [apply (H (fun h r => if String.eqb r q then consumption v t r + - h else consumption v t r) (fun r => if String.eqb r q then -1 else 0))|].
      + intros r _. destruct (String.eqb r q); lra.
      + intros r _. destruct (String.eqb r q); [|apply rd_const]. apply rd_eq with (0 + -1 * 1); [|ring]. apply rd_plus; [apply rd_const|]. apply (rd_same (fun d => -1 * d)); [intros; ring|]. apply rd_scal, rd_id.
      + unfold total. rewrite (bump_sum q (-1) (regions p) nu ND Hq). ring. }
  (* a choice over the finitely many steps of the horizon *)
  assert (Y : forall n, exists mu, forall t q, (t <= n)%nat -> In q (regions p) -> derivable_pt_lim (fun h => welfare_of p t (fun r => if String.eqb r q then consumption v t r + h else consumption v t r)) 0 (mu t q)).
  { induction n as [|n [mu IH]].
    - destruct (X 0%nat) as [nu H]. exists (fun _ => nu). intros t q L Hq. assert (t = 0%nat) as -> by lia. apply H, Hq.
    - destruct (X (S n)) as [nu H]. exists (fun t => if Nat.eqb t (S n) then nu else mu t). intros t q L Hq. destruct (Nat.eqb_spec t (S n)) as [->|Ne]; [apply H, Hq|apply IH; [lia|exact Hq]]. }
  destruct (Y (tf p)) as [mu H]. exists mu. intros t q Ht Hq. apply H; [lia|exact Hq].
Qed.
