(** Non-vacuity of C68. *)
From Coquelicot Require Import Coquelicot.
From Verif Require Import PyBase NestedDict Parsers Config ConfigDefault NestedDictFacts ConfigSpec ConfigBridge ConfigLemmas TimeGrid TimeGridLemmas DataStore DataStoreLemmas
  RegionalParams Instantiate InstFacts InstantiateLemmas ConstructFacts BundledData BundledFacts BundledSigns Model ModelFacts ModelSpec WelfareSpec Build BuildLemmas DefinedFacts Simulate SimFacts ExistSpec ExistFacts ExistLemmas
  Loading LoadingLemmas LoadingExist EndToEnd BundledExample EndToEndExample DeterminedData BaselineRun DominanceSpec DominanceLemmas DominanceConfig DominanceSim Names SimMode SimModeLemmas Example OptimumExample.
From Coq Require Import QArith Qreals Permutation Reals Lra Lia.
Import ListNotations.
Open Scope string_scope.
Open Scope list_scope.
Open Scope R_scope.
Set Bullet Behavior "Strict Subproofs".

(** Two regions, emissions that follow income, no damages: not abating is optimal for every welfare module and objective. *)
Example C68_ex_endogenous trapz we ob : exists v, optimal (ex true trapz nodamage notrade notransfer noregime we ob no_policy) v /\
  forall v', optimal (ex true trapz nodamage notrade notransfer noregime we ob no_policy) v' -> relative_abatement v' 7 "A" = 0.
Proof.
  set (p := ex true trapz nodamage notrade notransfer noregime we ob no_policy).
  destruct (C52_no_policy_run_exists_pf p (105/100) 6 ex_Kb ex_Cb) as (w & F & Z & _).
  - apply ex_ranges.
  - apply ex_data.
  - apply ex_choices; discriminate.
  - apply ex_logistic.
  - cbn; lra.
  - reflexivity.
  - unfold no_limits, p; cbn. repeat split; try (intros; discriminate); lra.
  - intros; cbn; lra.
  - intros r Hr; cbn. destruct (isA r); lra.
  - cbn; lra.
  - cbn; lra.
  - cbn; lra.
  - lra.
  - apply ex_envelope.
  - apply ex_Tmax.
  - cbn; lra.
  - intros X; discriminate X.
  - destruct (C68_not_abating_is_optimal_pf p w) as [O W].
    + apply ex_ranges.
    + cbn; lra.
    + cbn; lra.
    + apply ex_data.
    + intros; cbn; lra.
    + intros r Hr; cbn. destruct (isA r); lra.
    + cbn; lra.
    + left. reflexivity.
    + reflexivity.
    + reflexivity.
    + exact F.
    + intros t r T R. apply (Z t r T R).
    + exists w. split; [exact O|]. intros v' O'. apply (W v' O' ltac:(cbn; lra) 7%nat "A"); cbn; try lra; [unfold model_step; cbn; lia|auto].
Qed.

(** A plan that abates against one that does not, in the same model with damages switched off: consumption is lower wherever it abates. *)
Example C68_ex_abating_costs we ob : let p := ex false true nodamage notrade notransfer noregime we ob no_policy in
  exists v w, feasible p v /\ feasible p w /\ (forall t r, model_step p t -> In r (regions p) -> consumption v t r <= consumption w t r) /\
    consumption v 5 "A" < consumption w 5 "A".
Proof.
  intros p. pose (w := sim p (fun _ _ => 0) (fun t => 200 * INR t) (fun _ => 0)). pose (v := sim p ex_path ex_cum (fun _ => 0)).
  assert (Fw : feasible p w) by (apply ex_zero_solution; discriminate).
  assert (Fv : feasible p v).
  { apply exo_solution.
    - intros. apply ex_path_range.
    - intros. apply ex_cum_range.
    - discriminate.
    - discriminate.
    - reflexivity.
    - split; [reflexivity|]. intros t Ht. rewrite !ex_s_ge. apply (ex_steps t Ht).
    - intros t Ht. do 5 (split; [intros; discriminate|]). intros r Hr. do 5 (split; [intros; discriminate|]). intros; discriminate. }
  assert (Z : forall t r, mitigation_costs w t r = 0).
  { intros t r. unfold mitigation_costs, w. cbn [rval sim]. unfold s_M, s_unit. rewrite pow0 by (cbn; lra). unfold Rdiv. ring. }
  assert (PD : EconLemmas.positive_data p) by apply ex_data.
  assert (CV : forall t r, model_step p t -> In r (regions p) -> 0 <= mitigation_costs v t r).
  { intros t r Ht Hr. apply (own_costs_nonneg p v t r Fv Ht Hr); auto; try reflexivity; [apply ex_ranges|intros; cbn; lra|intros s Hs; cbn; destruct (isA s); lra|cbn; lra]. }
  assert (D : forall r, In r (regions p) -> forall t, model_step p t -> consumption v t r <= consumption w t r /\ (0 < mitigation_costs v t r -> consumption v t r < consumption w t r)).
  { intros r Hr t Ht. destruct (C68_lower_costs_more_consumption_pf p v w r Fv Fw Hr eq_refl ltac:(cbn; lra) ltac:(cbn; lra) ltac:(cbn; lra) ltac:(cbn; lra) PD) with (t := t) as (_ & _ & _ & C & S).
    - intros s Hs. rewrite Z. rewrite !(share_zero p _ s r) by (auto; left; reflexivity). split; [apply CV; auto|lra].
    - intros s Hs. rewrite Z, Rmult_0_r. apply Rlt_le, (EconLemmas.C31_capital_positive_pf p w s r Fw); auto; [unfold model_step; lia|cbn; lra|cbn; lra|cbn; lra|apply ex_GDP_pos|].
      intros u Hu. assert (Mu : model_step p u) by (unfold model_step; lia). unfold investments. rewrite (Equations.q_investments p w Fw u r Mu Hr), (Equations.q_GDP_net p w Fw u r Mu Hr).
      rewrite EconLemmas.transfer_deno. change (transfer_paid p w u r) with 0. change (if ignore_damages p then 0 else rval w v_damage_costs u r) with (damage_share p w u r).
      rewrite (share_zero p w u r Fw Mu Hr) by (left; reflexivity). change (rval w v_mitigation_costs u r) with (mitigation_costs w u r). rewrite Z.
      pose proof (EconLemmas.C31_GDP_positive_pf p w u r Fw Mu Hr ltac:(cbn; lra) ltac:(cbn; lra) ltac:(cbn; lra) PD) as Y. unfold GDP_gross in Y. cbn [sr ex p]. apply Rmult_le_pos; [cbn; lra|lra].
    - exact Ht.
    - split; [exact C|]. intros X. apply S; [cbn; lra|rewrite Z; exact X]. }
  exists v, w. split; [exact Fv|]. split; [exact Fw|]. split; [intros t r Ht Hr; apply D; auto|].
  apply D; [cbn; auto|unfold model_step; cbn; lia|].
  assert (M5 : model_step p 5) by (unfold model_step; cbn; lia). assert (RA : In "A" (regions p)) by (cbn; auto).
  unfold mitigation_costs. rewrite (Equations.q_mitigation p v Fv 5 "A" M5 RA), EconLemmas.cost_balance_deno. change (imported_costs p v 5 "A") with 0. rewrite Rplus_0_r.
  rewrite (Equations.q_area p v Fv 5 "A" M5 RA), (Equations.q_baseline p v Fv 5 "A" M5 RA). cbn [use_carbon_intensity baseline_emissions ex p].
  assert (AB : 0 < rval v v_relative_abatement 5 "A") by (cbn; lra).
  pose proof (PowFacts.pypow_pos_pos _ (MAC_beta p + 1) AB). pose proof (MitigationLemmas.learning_pos p v 5 Fv M5 ltac:(cbn; lra)) as LP. unfold learning_factor in LP.
  cbn [MAC_scaling MAC_gamma MAC_beta ex p] in *. unfold Rdiv. repeat (apply Rmult_lt_0_compat; try lra); auto. cbn. lra.
Qed.

(** The shipped files, all 26 regions (the configuration of C67's example). *)
Lemma overrides_b : no_overrides regions_b.
Proof.
  assert (H : forallb (fun kx => match snd kx with VNone | VDict [] => true | _ => false end) regions_b = true) by (vm_compute; reflexivity).
  intros k x cat col I _. rewrite forallb_forall in H. specialize (H _ I). cbn [snd] in H. destruct x as [| | | | | |[|]]; try discriminate H; reflexivity.
Qed.
Example C68_ex_shipped : exists inst p, construct pint_oracles bundled (fun l => l) unit_mega curve empty_caches user_b = Ok inst /\ loads inst p /\
  (exists v, optimal p v) /\ forall v, optimal p v -> forall t r, model_step p t -> In r (regions p) -> regional_emissions v t r = baseline_emissions p t r.
Proof.
  destruct (C68_shipped_baseline_is_optimal_pf pint_oracles (fun l => l) unit_mega curve [] user_b raw_b params_b tree_b regions_b 2020%Q 2150%Q accepted_b) as (inst & H & PE & (p & L) & K).
  - intros q Hq. cbn [In] in Hq. repeat (destruct Hq as [<-|Hq]; [reflexivity|]). destruct Hq.
  - exact quantities_b.
  - exact real_b.
  - exact custom_b.
  - exact lookup_b.
  - vm_compute. discriminate.
  - exact overrides_b.
  - exact names_b.
  - eexists. split; vm_compute; reflexivity.
  - eexists. split; vm_compute; reflexivity.
  - discriminate.
  - discriminate.
  - discriminate.
  - intros x (v & LV & NV). vm_compute in LV. injection LV as <-. cbn [number] in NV. apply Ok_inj in NV. subst x. unfold Q2R. cbn. lra.
  - exists 202%Z, 1%Z, 10%Q. split; [reflexivity|]. split; [|reflexivity]. eexists. split; vm_compute; reflexivity.
  - left. exists "SSP2". split; [vm_compute; reflexivity|cbn; auto].
  - exact py_prints.
  - intros unit q X. discriminate X.
  - intros l. apply Permutation_refl.
  - intros v to from _. unfold unit_mega. destruct (String.eqb from "Mt CO2/yr"); eauto.
  - intros v to from k _ E. unfold unit_mega in E. destruct (String.eqb from "Mt CO2/yr"); apply Ok_inj in E; subst; lra.
  - exact curve_defined.
  - exact curve_points.
  - reflexivity.
  - intros disk a [].
  - pose proof (C60_configuration_reaches_model_pf _ _ _ _ _ _ _ _ _ distinct_b H ltac:(rewrite PE; exact custom_b) L) as CF. rewrite PE in CF.
    pose proof (number_b _ 10%Q _ (cf_dt _ _ _ CF) ltac:(vm_compute; reflexivity)) as D.
    pose proof (number_b _ (3#10)%Q _ (cf_alpha _ _ _ CF) ltac:(vm_compute; reflexivity)) as AL.
    pose proof (quantity_b _ _ "1.16 delta_degC" (116#100)%Q _ (cf_T0 _ _ _ CF) ltac:(vm_compute; reflexivity) ltac:(vm_compute; reflexivity)) as HT0.
    pose proof (quantity_b _ _ "0.62 delta_degC/(TtCO2)" (62#100000)%Q _ (cf_TCRE _ _ _ CF) ltac:(vm_compute; reflexivity) ltac:(vm_compute; reflexivity)) as HC.
    pose proof (quantity_b _ _ "2601 USD2005/tCO2" 1%Q _ (cf_gamma _ _ _ CF) ltac:(vm_compute; reflexivity) ltac:(vm_compute; reflexivity)) as HG.
    pose proof (number_b _ 0%Q _ (cf_min_costs _ _ _ CF) ltac:(vm_compute; reflexivity)) as HM.
    assert (ND : dmg_module p = nodamage).
    { pose proof (cf_damage _ _ _ CF) as X. unfold text_in in X. destruct (dmg_module p); [vm_compute in X; discriminate X|reflexivity]. }
    assert (HR : effort_regime p = noregime).
    { pose proof (cf_regime _ _ _ CF) as X. unfold text_in in X. destruct (effort_regime p); [reflexivity| | |]; vm_compute in X; discriminate X. }
    assert (DD : dt p = 10) by (rewrite D; unfold Q2R; cbn; lra).
    assert (TF : INR (tf p) * dt p < 140).
    { destruct (cf_end _ _ _ CF) as (stop & S1 & S2). destruct (S1) as (v & V & N). vm_compute in V. injection V as <-. cbn [number] in N. apply Ok_inj in N.
      destruct (cf_start _ _ _ CF) as (v' & V' & N'). vm_compute in V'. injection V' as <-. cbn [number] in N'. apply Ok_inj in N'.
      unfold year in S2. rewrite N, N', DD in S2. rewrite DD. destruct (S2 ltac:(lra) ltac:(lra)) as [_ S3]. lra. }
    specialize (K p (T0 p + TCRE p * (112 * 140)) L). rewrite DD in K at 1.
    assert (E0 : T0 p = 116/100) by (rewrite HT0; unfold Q2R; cbn; lra). assert (E1 : TCRE p = 62/100000) by (rewrite HC; unfold Q2R; cbn; lra).
    destruct K as [(v & O & E) W].
    + exact usable_b.
    + pose proof (cf_intensity _ _ _ CF) as X. unfold flag_in in X. vm_compute in X. injection X as X. symmetry. exact X.
    + split; [exact (qoff_b _ _ _ (cf_target _ _ _ CF) ltac:(vm_compute; reflexivity))|]. split; [exact (qoff_b _ _ _ (cf_budget _ _ _ CF) ltac:(vm_compute; reflexivity))|].
      split; [intros l E; rewrite (qoff_b _ _ _ (cf_global_min _ _ _ CF) ltac:(vm_compute; reflexivity)) in E; discriminate E|].
      split; [intros l E; rewrite (qoff_b _ _ _ (cf_regional_min _ _ _ CF) ltac:(vm_compute; reflexivity)) in E; discriminate E|].
      split; [exact (off_b _ _ (cf_inertia_global _ _ _ CF) ltac:(vm_compute; reflexivity))|]. split; [exact (off_b _ _ (cf_inertia_regional _ _ _ CF) ltac:(vm_compute; reflexivity))|].
      split; [pose proof (cf_non_increasing _ _ _ CF) as X; unfold flag_in in X; vm_compute in X; injection X as X; symmetry; exact X|]. split; [exact HR|]. rewrite HM. unfold Q2R. cbn. lra.
    + rewrite AL. unfold Q2R. cbn. lra.
    + rewrite (number_b _ (21#100)%Q _ (cf_sr _ _ _ CF) ltac:(vm_compute; reflexivity)). unfold Q2R. cbn. lra.
    + rewrite HG. unfold Q2R. cbn. lra.
    + lra.
    + lra.
    + rewrite E1. nra.
    + rewrite DD, E0, E1. lra.
    + intros X. rewrite ND in X. discriminate X.
    + left. exact ND.
    + pose proof (cf_transfer _ _ _ CF) as X. unfold text_in in X. destruct (transfer p); [reflexivity|vm_compute in X; discriminate X].
    + pose proof (cf_trade _ _ _ CF) as X. unfold text_in in X. destruct (trade p); [reflexivity| |]; vm_compute in X; discriminate X.
    + exists inst, p. split; [exact H|]. split; [exact L|]. split; [exists v; exact O|]. intros v' O' t r T R. apply (W v' O' t r T R).
Qed.

(** Simulation mode with abatement fixed at zero: the instance is made and has a solution. *)
Example C68_ex_simulated trapz dm we ob : let p := ex false trapz dm notrade notransfer noregime we ob no_policy in
  let s := {| sim_fixed := [("relative_abatement", fun _ => Some (fun _ => 0))]; sim_deactivated := [] |} in
  exists m active v, create_instance p (fun _ => 0%nat) 0%nat m (Some s) = Ok active /\ solution_of p active v /\
    forall t r, model_step p t -> In r (regions p) -> relative_abatement v t r <= 1/1000.
Proof.
  intros p s.
  destruct (C47_simulation_builds_pf (fun _ => 0%nat) 0%nat p s) as (m0 & M).
  - apply ex_ranges.
  - apply ex_data.
  - apply ex_choices; discriminate.
  - intros name data [I|[]]. injection I as <- <-. left. exists v_relative_abatement. split; [reflexivity|]. split; [reflexivity|]. intros r _. discriminate.
  - intros d [].
  - destruct (M m0 (le_n _)) as (active & A).
    pose (w := sim p (fun _ _ => 0) (fun t => 200 * INR t) (fun _ => 0)).
    assert (Fw : feasible p w) by (apply ex_zero_solution; discriminate).
    assert (S : solution_of p active w).
    { apply (C47_solution_reproduced_pf _ _ _ _ _ _ _ A Fw). intros name data t [I|[]] Ht. injection I as <- <-. split.
      - intros x r f E Hr X. injection X as <-. change "relative_abatement" with (rname v_relative_abatement) in E. change (rname v_relative_abatement) with (vname (Rv v_relative_abatement)) in E.
        change (rname x) with (vname (Rv x)) in E. apply vname_inj in E. injection E as <-. cbn. lra.
      - intros g f E X. exfalso. destruct g; discriminate E. }
    exists m0, active, w. split; [exact A|]. split; [exact S|]. intros t r Ht Hr.
    apply (C68_simulated_baseline_pf _ _ _ _ _ _ _ _ A eq_refl S (or_introl eq_refl)); auto. intros q Hq. exists (fun _ => 0). auto.
Qed.
