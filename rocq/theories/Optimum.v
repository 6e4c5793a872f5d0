(** C67: an optimal plan exists. *)
From Coq Require Import Lra Lia Classical_Prop IndefiniteDescription.
From Coquelicot Require Import Coquelicot.
From Verif Require Import ModelFacts SoftFacts ModelSpec PowFacts Equations Equations2 ClimateSpec ClimateLemmas WelfareSpec Build VarFacts EconLemmas BuildFacts BuildLemmas DefinedFacts SolveFacts Subsequence Compact Bounds.
Open Scope R_scope.
Set Bullet Behavior "Strict Subproofs".

(** *** The best value over a set of plans with bounded net incomes is attained. *)
Definition score (p : pars) (v : point) : R := if maximise p then objective_value p v else - objective_value p v.
Lemma better_score p v w : better p v w <-> score p w <= score p v.
Proof. unfold better, score. destruct (maximise p); split; intros; lra. Qed.

Lemma attained p v0 : numeric_ranges p -> sound_data p -> usable_choices p -> slr_logistic_ok p -> feasible p v0 ->
  (forall t r, (t <= tf p)%nat -> In r (regions p) -> bd (fun v => feasible p v /\ better p v v0) (fun v => rval v v_GDP_net t r)) ->
  exists v, optimal p v.
Proof.
  intros NR SD U SL F0 B.
  set (E := fun x => exists v, feasible p v /\ better p v v0 /\ x = score p v).
  assert (E0 : E (score p v0)) by (exists v0; split; [exact F0|]; split; [apply better_score; lra|reflexivity]).
  destruct (ex_lub_Rbar E) as [l [UB LB]].
  set (near := fun k x => match l with Finite m => m - / (INR k + 1) < x | p_infty => INR k < x | m_infty => True end).
  assert (Q : forall k, exists v, feasible p v /\ better p v v0 /\ near k (score p v)).
  { intros k. apply NNPP. intros N. assert (P : 0 < / (INR k + 1)) by (apply Rinv_0_lt_compat; pose proof (pos_INR k); lra).
    assert (Z : forall x, E x -> ~ near k x) by (intros x (v & F & V & ->) X; apply N; exists v; auto).
    unfold near in Z. destruct l as [m| |].
    - assert (H : Rbar_le m (m - / (INR k + 1))) by (apply LB; intros x X; specialize (Z x X); cbn; lra). cbn in H. lra.
    - assert (H : Rbar_le p_infty (INR k)) by (apply LB; intros x X; specialize (Z x X); cbn; lra). exact H.
    - exact (Z _ E0 I). }
  apply functional_choice in Q. destruct Q as [u Q].
  destruct (compact p u NR SD U SL (fun k => proj1 (Q k))) as (phi & w & IP & FW & LW).
  { intros t r T R. destruct (B t r T R) as [M H]. exists M. intros k. apply H. split; apply (Q k). }
  exists w. split; [exact FW|].
  assert (LS : is_lim_seq (fun k => score p (u (phi k))) (score p w)).
  { unfold score, objective_value. destruct (maximise p); [exact LW|]. exact (proj1 (is_lim_seq_opp _ (Finite _)) LW). }
  assert (PG : forall k, (k <= phi k)%nat) by (induction k; [lia|specialize (IP k); lia]).
  assert (TOP : Rbar_le l (score p w)).
  { destruct l as [m| |]; cbn.
    - apply Rnot_lt_le. intros X. apply is_lim_seq_spec in LS. assert (EP : 0 < (m - score p w) / 2) by lra.
      destruct (LS (mkposreal _ EP)) as [n1 L1]. destruct (archimed_cor1 _ EP) as (n2 & I2 & P2).
      specialize (L1 (n1 + n2)%nat ltac:(lia)). cbn in L1. apply Rabs_def2 in L1.
      destruct (Q (phi (n1 + n2)%nat)) as (_ & _ & NE). unfold near in NE.
      assert (I3 : / (INR (phi (n1 + n2)%nat) + 1) <= / INR n2).
      { apply Rinv_le_contravar; [apply lt_0_INR, P2|]. assert (G : (n2 <= phi (n1 + n2))%nat) by (specialize (PG (n1 + n2)%nat); lia). apply le_INR in G. lra. }
      lra.
    - destruct (conv_bounded (fun k => score p (u (phi k)))) as [M H]; [exists (score p w); exact LS|]. destruct (Rcomplements.nfloor_ex (Rabs M) (Rabs_pos M)) as [m [_ X]]. set (n := S m). assert (XN : M < INR n) by (unfold n; rewrite S_INR; pose proof (Rle_abs M); lra).
      destruct (Q (phi n)) as (_ & _ & NE). unfold near in NE. specialize (H n). apply Rcomplements.Rabs_le_between in H.
      pose proof (le_INR _ _ (PG n)). lra.
    - exact I. }
  intros x FX. apply better_score.
  assert (Y : forall y, E y -> y <= score p w).
  { intros y EY. specialize (UB y EY). pose proof (Rbar_le_trans _ _ _ UB TOP) as H. exact H. }
  destruct (Rle_dec (score p v0) (score p x)) as [L|L].
  - apply Y. exists x. split; [exact FX|]. split; [apply better_score; exact L|reflexivity].
  - specialize (Y _ E0). lra.
Qed.

(** *** Bounds over a set of feasible plans *)
Lemma curve_bounded d r X : (str_contains "Logistic" (d_form d r) = true -> 0 <= d_b2 d r) -> known_form (d_form d r) ->
  exists M, forall x, Rabs x <= X -> Rabs (damage_curve d r x) <= M.
Proof.
  intros L K. destruct (str_contains "Linear" (d_form d r)) eqn:E1; [|destruct (str_contains "Quadratic" (d_form d r)) eqn:E2].
  - exists (Rabs (d_a d r * d_b1 d r) * X / 100). intros x H. unfold damage_curve. rewrite E1.
    unfold Rdiv. rewrite !Rabs_mult. rewrite (Rabs_right (/ 100)) by lra. apply Rmult_le_compat_r; [lra|].
    apply Rmult_le_compat_l; [apply Rmult_le_pos; apply Rabs_pos|exact H].
  - exists (Rabs (d_a d r) * (Rabs (d_b1 d r) * X + Rabs (d_b2 d r) * (X * X)) / 100). intros x H. unfold damage_curve. rewrite E1, E2.
    unfold Rdiv. rewrite !Rabs_mult. rewrite (Rabs_right (/ 100)) by lra. apply Rmult_le_compat_r; [lra|].
    apply Rmult_le_compat_l; [apply Rabs_pos|]. eapply Rle_trans; [apply Rabs_triang|]. rewrite !Rabs_mult.
    apply Rplus_le_compat; (apply Rmult_le_compat_l; [apply Rabs_pos|]); [exact H|].
    cbn [pow]. rewrite Rmult_1_r, Rabs_mult. apply Rmult_le_compat; auto using Rabs_pos.
  - destruct K as [K|[K|K]]; [congruence|congruence|]. exists (Rabs (d_a d r * d_b1 d r) / 100). intros x _.
    apply C40_logistic_bounded_pf; [split; assumption|exact (L K)].
Qed.

Section Model.
  Variable p : pars.
  Variable A : point -> Prop.
  Hypothesis NR : numeric_ranges p.
  Hypothesis SD : sound_data p.
  Hypothesis U : usable_choices p.
  Hypothesis AL : 0 <= alpha p < 1.
  Hypothesis FA : forall v, A v -> feasible p v.
  Notation regs := (regions p).

  Lemma gp v t r : A v -> (t <= tf p)%nat -> In r regs -> 0 < rval v v_GDP_gross t r.
  Proof.
    intros V T R. pose proof NR as (Hdt & Hdk & Hs & _). pose proof SD as (_ & PD & _).
    exact (C31_GDP_positive_pf p v t r (FA v V) T R Hdt Hdk Hs PD).
  Qed.
  (** Capital and gross output cannot grow without limit when net output is at most a multiple of gross output. *)
  Lemma economy : (forall t r, (0 < t <= tf p)%nat -> In r regs -> exists C, 0 <= C /\ forall v, A v -> rval v v_GDP_net t r <= C * rval v v_GDP_gross t r) ->
    forall t r, (t <= tf p)%nat -> In r regs -> up A (fun v => rval v v_capital_stock t r) /\ bd A (fun v => rval v v_GDP_gross t r).
  Proof.
    intros UN. pose proof NR as (Hdt & Hdk & Hs & _). pose proof SD as (_ & PD & _).
    induction t as [|t IH]; intros r T R.
    - split; [exists (init_capital_factor p r * baseline_GDP p 0 r); intros v V; rewrite (q_capital0 p v (FA v V) r R); lra|].
      exists (Rabs (baseline_GDP p 0 r)). intros v V. rewrite (q_GDP_gross0 p v (FA v V) r R). lra.
    - destruct (IH r ltac:(lia) R) as [[Kt HK] _]. destruct (UN (S t) r (conj (Nat.lt_0_succ t) T) R) as (C & C0 & HC).
      destruct (surv_range p Hdt Hdk) as [_ [S0 S1]].
      set (B := TFP p (S t) r * pypow (population p (S t) r) (1 - alpha p)).
      assert (B0 : 0 <= B).
      { apply Rmult_le_pos; [apply Rlt_le, TFP_pos; auto|]. apply Rlt_le, pypow_pos_pos. apply (proj2 (PD r R) (S t) T). }
      assert (GR : forall v, A v -> rval v v_GDP_gross (S t) r = B * Rpower (smin 10 (rval v v_capital_stock (S t) r)) (alpha p)).
      { intros v V. rewrite (q_GDP_gross p v (FA v V) (S t) r (conj (Nat.lt_0_succ t) T) R). rewrite (pypow_pos (smin 10 _)); [reflexivity|].
        pose proof (smin10_gap (rval v v_capital_stock (S t) r)). pose proof (Rmax_r (rval v v_capital_stock (S t) r) 0). lra. }
      destruct (young (dt p * sr p * C * B) (alpha p)) as (b1 & b1p & Y1); [|exact AL|].
      { apply Rmult_le_pos; [apply Rmult_le_pos; [apply Rmult_le_pos|]|]; lra. }
      destruct (young B (alpha p) B0 AL) as (b2 & b2p & Y2).
      set (M := Rmax 0 (2 * Kt + 1 + 2 * b1)). pose proof (Rmax_l 0 (2 * Kt + 1 + 2 * b1)) as M0. pose proof (Rmax_r 0 (2 * Kt + 1 + 2 * b1)) as M1. fold M in M0, M1.
      assert (UK : forall v, A v -> rval v v_capital_stock (S t) r <= M).
      { intros v V. pose proof (capital_closed p v t r (FA v V) T R Hdt Hdk) as E. unfold capital_stock, investments in E.
        rewrite (q_investments p v (FA v V) (S t) r T R) in E. specialize (HK v V). specialize (HC v V). rewrite (GR v V) in HC.
        set (K := rval v v_capital_stock (S t) r) in *. destruct (Rle_dec K 0) as [L|L]; [lra|].
        pose proof (smin10_gap K) as G. rewrite (Rmax_left K 0) in G by lra.
        specialize (Y1 (smin 10 K) ltac:(lra)).
        assert (X : dt p * (sr p * rval v v_GDP_net (S t) r) <= dt p * sr p * C * B * Rpower (smin 10 K) (alpha p)).
        { apply Rle_trans with (dt p * (sr p * (C * (B * Rpower (smin 10 K) (alpha p))))); [|right; ring].
          apply Rmult_le_compat_l; [lra|]. apply Rmult_le_compat_l; [lra|exact HC]. }
        assert (Z : K <= K * (2 - survival p)) by nra. lra. }
      split; [exists M; exact UK|].
      exists ((M + 1) / 2 + b2). intros v V. rewrite Rabs_right by (apply Rle_ge, Rlt_le, gp; auto). rewrite (GR v V). specialize (UK v V).
      pose proof (smin10_gap (rval v v_capital_stock (S t) r)) as G.
      assert (Q : Rmax (rval v v_capital_stock (S t) r) 0 <= M) by (apply Rmax_lub; lra).
      pose proof (Rmax_r (rval v v_capital_stock (S t) r) 0). specialize (Y2 (smin 10 (rval v v_capital_stock (S t) r)) ltac:(lra)). lra.
  Qed.

  Lemma mit_ge v t r : A v -> (t <= tf p)%nat -> In r regs ->
    (if Nat.ltb 0 t then rel_mitigation_costs_min_level p else 0) * rval v v_GDP_gross t r <= rval v v_mitigation_costs t r.
  Proof.
    intros V T R. pose proof (q_rel_mitigation_min p v (FA v V) t r T R) as M. destruct (q_rel_mitigation p v (FA v V) t r T R) as [E NZ].
    pose proof (gp v t r V T R) as G. rewrite E in M. apply Rge_le in M. apply Rmult_le_compat_r with (r := rval v v_GDP_gross t r) in M; [|lra].
    replace (rval v v_mitigation_costs t r / rval v v_GDP_gross t r * rval v v_GDP_gross t r) with (rval v v_mitigation_costs t r) in M by (field; exact NZ). exact M.
  Qed.
  Lemma two_transfers : transfer p = notransfer \/ transfer p = globaldamagepool.
  Proof. destruct (transfer p); auto. Qed.
  Lemma net_share : (transfer p = notransfer -> ignore_damages p = false -> forall t r, (t <= tf p)%nat -> In r regs -> lo A (fun v => rval v v_damage_costs t r)) ->
    (transfer p = globaldamagepool -> ignore_damages p = true -> forall t r, (t <= tf p)%nat -> In r regs -> up A (fun v => rval v v_damage_costs t r)) ->
    forall t r, (t <= tf p)%nat -> In r regs -> exists C, 0 <= C /\ forall v, A v -> rval v v_GDP_net t r <= C * rval v v_GDP_gross t r.
  Proof.
    intros LD UD t r T R. set (ml := if Nat.ltb 0 t then rel_mitigation_costs_min_level p else 0).
    assert (X : exists C, forall v, A v -> rval v v_GDP_gross t r * (1 - if ignore_damages p then 0 else rval v v_damage_costs t r) - deno v (financial_transfer p t r) <= C * rval v v_GDP_gross t r).
    { unfold financial_transfer. destruct two_transfers as [E|E]; rewrite E.
      - assert (IG : ignore_damages p = true \/ ignore_damages p = false) by (destruct (ignore_damages p); auto). destruct IG as [G|G]; rewrite G.
        + exists 1. intros v V. cbn [deno]. lra.
        + destruct (LD E G t r T R) as [m H]. exists (1 - m). intros v V. cbn [deno]. specialize (H v V). pose proof (gp v t r V T R). nra.
      - assert (IG : ignore_damages p = true \/ ignore_damages p = false) by (destruct (ignore_damages p); auto). destruct IG as [G|G]; rewrite G.
        + destruct (UD E G t r T R) as [m H]. exists (1 + m). intros v V. cbn [deno]. specialize (H v V). pose proof (gp v t r V T R).
          pose proof (q_tr_max p v (FA v V) E t r T R). nra.
        + exists 1. intros v V. cbn [deno]. pose proof (q_tr_max p v (FA v V) E t r T R). lra. }
    destruct X as [C H]. exists (Rmax 0 (C - ml)). split; [apply Rmax_l|]. intros v V. specialize (H v V).
    rewrite (q_GDP_net p v (FA v V) t r T R). pose proof (mit_ge v t r V T R) as M. fold ml in M. pose proof (gp v t r V T R) as G.
    pose proof (Rmult_le_compat_r _ _ _ (Rlt_le _ _ G) (Rmax_r 0 (C - ml))). lra.
  Qed.

  (** Mitigation costs and transfers, once gross output is bounded. *)
  Section Gross.
    Hypothesis GB : forall t r, (t <= tf p)%nat -> In r regs -> bd A (fun v => rval v v_GDP_gross t r).
    Lemma mit_lo t r : (t <= tf p)%nat -> In r regs -> lo A (fun v => rval v v_mitigation_costs t r).
    Proof.
      intros T R. apply (lo_ge A _ (fun v => (if Nat.ltb 0 t then rel_mitigation_costs_min_level p else 0) * rval v v_GDP_gross t r)); [intros v V; apply mit_ge; auto|].
      apply bd_lo, (bd_mult A (fun _ => _)); [apply bd_c|apply GB; auto].
    Qed.
    Lemma area_price v t r : A v -> (t <= tf p)%nat -> In r regs ->
      rval v v_area_under_MAC t r = rval v v_carbonprice t r * (rval v v_relative_abatement t r / (MAC_beta p + 1)) * rval v v_baseline t r.
    Proof.
      intros V T R. pose proof NR as (_ & _ & _ & Hb & _). destruct (q_bounds_r p v (FA v V) t r T R) as [[A0 _] _].
      rewrite (q_area p v (FA v V) t r T R), (q_carbonprice p v (FA v V) t r T R), !pypow_apow, apow_S by lra. field. lra.
    Qed.
    Lemma price_bd t r : (t <= tf p)%nat -> In r regs -> bd A (fun v => rval v v_carbonprice t r).
    Proof.
      intros T R. exists (2 * MAC_gamma p). intros v V. destruct (q_bounds_r p v (FA v V) t r T R) as (_ & P & _). rewrite Rabs_right; lra.
    Qed.
    Lemma ab_bd t r : (t <= tf p)%nat -> In r regs -> bd A (fun v => rval v v_relative_abatement t r).
    Proof.
      intros T R. exists (25/10). intros v V. destruct (q_bounds_r p v (FA v V) t r T R) as (P & _). rewrite Rabs_right; lra.
    Qed.
    (** own costs bounded, so payments and total costs as well *)
    Lemma mit_bd t : (t <= tf p)%nat -> (forall r, In r regs -> bd A (fun v => rval v v_area_under_MAC t r)) ->
      forall r, In r regs -> bd A (fun v => rval v v_mitigation_costs t r).
    Proof.
      intros T AB r R. assert (TR : trade p = notrade \/ trade p = emissiontrade) by (pose proof (proj1 U) as N; destruct (trade p); auto; contradiction).
      assert (ME : forall v s, A v -> In s regs -> rval v v_mitigation_costs t s = rval v v_area_under_MAC t s + deno v (cost_balance p t s))
        by (intros v s V R'; apply (q_mitigation p v (FA v V) t s T R')).
      unfold cost_balance in ME. destruct TR as [E|E]; rewrite E in ME.
      - apply (bd_ext A _ (fun v => rval v v_area_under_MAC t r)); [intros v V; rewrite (ME v r V R); cbn [deno]; lra|apply AB, R].
      - apply (bd_ext A _ (fun v => rval v v_area_under_MAC t r + rval v v_import_export_mitigation_cost_balance t r)); [intros v V; apply (ME v r V R)|].
        apply bd_plus; [apply AB, R|]. revert r R. apply (zero_sum_bd A (fun r v => rval v v_import_export_mitigation_cost_balance t r)).
        + intros r R. apply (lo_ge A _ (fun v => rval v v_mitigation_costs t r + - rval v v_area_under_MAC t r)); [intros v V; rewrite (ME v r V R); cbn [deno]; lra|].
          apply lo_plus; [apply mit_lo; auto|]. apply lo_opp, bd_up, AB, R.
        + intros v V. apply (q_et_balance p v (FA v V) E t T).
    Qed.
    (** transfers, when the damages in money are bounded above *)
    Lemma tr_bd t : (t <= tf p)%nat -> (transfer p = globaldamagepool -> forall r, In r regs -> up A (fun v => rval v v_damage_costs t r * rval v v_GDP_gross t r)) ->
      forall r, In r regs -> bd A (fun v => deno v (financial_transfer p t r)).
    Proof.
      intros T DB r R. unfold financial_transfer. destruct two_transfers as [E|E]; rewrite E; cbn [deno]; [apply bd_c|]. specialize (DB E).
      assert (L : forall s, In s regs -> lo A (fun v => rval v v_financial_transfer t s)).
      { intros s R'. apply (lo_ge A _ (fun v => - (rval v v_damage_costs t s * rval v v_GDP_gross t s))); [|apply lo_opp, DB, R'].
        intros v V. pose proof (q_tr_max p v (FA v V) E t s T R'). lra. }
      destruct t as [|t].
      - apply (bd_ext A _ (fun _ => 0)); [intros v V; apply (q_tr_first p v (FA v V) E r R)|apply bd_c].
      - revert r R. apply (zero_sum_bd A (fun r v => rval v v_financial_transfer (S t) r) _ L). intros v V. apply (q_tr_zero p v (FA v V) E (S t) (conj (Nat.lt_0_succ t) T)).
    Qed.
    Lemma net_bd t : (t <= tf p)%nat -> forall r, In r regs -> bd A (fun v => rval v v_mitigation_costs t r) -> bd A (fun v => deno v (financial_transfer p t r)) ->
      bd A (fun v => rval v v_damage_costs t r * rval v v_GDP_gross t r) -> bd A (fun v => rval v v_GDP_net t r).
    Proof.
      intros T r R M TR D.
      apply (bd_ext A _ (fun v => rval v v_GDP_gross t r - (if ignore_damages p then 0 else rval v v_damage_costs t r * rval v v_GDP_gross t r) - rval v v_mitigation_costs t r - deno v (financial_transfer p t r))).
      - intros v V. rewrite (q_GDP_net p v (FA v V) t r T R). destruct (ignore_damages p); ring.
      - apply bd_minus; [|exact TR]. apply bd_minus; [|exact M]. apply bd_minus; [apply GB; auto|]. destruct (ignore_damages p); [apply bd_c|exact D].
    Qed.
  End Gross.
End Model.
