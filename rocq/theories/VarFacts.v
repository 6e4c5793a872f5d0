(** Which variables occur in which constraint (C19), and dependence of constraints on them only. *)
From Coq Require Import Lra Lia.
From Verif Require Import ModelFacts SoftFacts ModelSpec Build.
Set Bullet Behavior "Strict Subproofs".

Lemma evars_mono (P P' : gvar -> nat -> Prop) (Q Q' : rvar -> nat -> region -> Prop) e :
  (forall g t, P g t -> P' g t) -> (forall x t r, Q x t r -> Q' x t r) -> evars P Q e -> evars P' Q' e.
Proof. intros HP HQ. induction e; cbn; auto; intuition. Qed.
Lemma evars_fold P Q (f : region -> expr) l acc :
  evars P Q (fold_left (fun a r => EAdd a (f r)) l acc) <-> evars P Q acc /\ forall r, In r l -> evars P Q (f r).
Proof.
  revert acc; induction l as [|r l IH]; intros acc; cbn [fold_left].
  - split; [intros H; split; [exact H|intros r []]|intros [H _]; exact H].
  - rewrite IH. cbn. split.
    + intros [[A B] C]. split; auto. intros s [<-|]; auto.
    + intros [A B]. auto.
Qed.
Lemma evars_esum P Q (f : region -> expr) l : evars P Q (esum f l) <-> forall r, In r l -> evars P Q (f r).
Proof. unfold esum. rewrite evars_fold. cbn. tauto. Qed.
Lemma evars_soft_min P Q e s : evars P Q (soft_min e s) <-> evars P Q e.
Proof. unfold soft_min, soft_switch. cbn. tauto. Qed.
Lemma evars_soft_max P Q e m s : evars P Q (soft_max e m s) <-> evars P Q e /\ evars P Q m.
Proof. unfold soft_max. cbn [evars]. rewrite evars_soft_min. cbn. tauto. Qed.

Lemma deno_agree v w e :
  evars (fun g t => gval v g t = gval w g t) (fun x t r => rval v x t r = rval w x t r) e ->
  deno v e = deno w e /\ (defd v e <-> defd w e).
Proof.
  induction e as [x|g t|x t r|a IHa b IHb|a IHa b IHb|a IHa b IHb|a IHa b IHb|a IHa|a IHa b IHb|a IHa n|a IHa|a IHa];
    cbn; intros H.
  1-3: split; [auto|tauto].
  1-4,6: destruct H as [H1 H2]; destruct (IHa H1) as [-> D1]; destruct (IHb H2) as [-> D2]; split; [reflexivity|tauto].
  all: destruct (IHa H) as [-> D]; split; [reflexivity|tauto].
Qed.
Lemma sat_agree v w o :
  rvars (fun g t => gval v g t = gval w g t) (fun x t r => rval v x t r = rval w x t r) o ->
  (sat v o <-> sat w o).
Proof.
  destruct o as [|a op b|x]; cbn; try tauto. intros [A B].
  destruct (deno_agree v w a A) as [-> DA]. destruct (deno_agree v w b B) as [-> DB].
  destruct op; tauto.
Qed.

(** the rule outputs of a constraint object *)
Definition outs (p : pars) (c : constr) : list rule_out :=
  flat_map (fun nc => outputs (tf p) (regions p) (snd nc)) (to_pyomo c).

Definition ok_g (p : pars) (g : gvar) (t : nat) : Prop := declared_g p g = true /\ (t <= tf p)%nat.
Definition ok_r (p : pars) (x : rvar) (t : nat) (r : region) : Prop :=
  declared_r p x = true /\ (t <= tf p)%nat /\ In r (regions p).

(** outputs of each kind of constraint, by index *)
Definition rule_at (c : constr) (t : nat) (r : region) (o : rule_out) : Prop :=
  match c with
  | GlobalC _ f => o = f t
  | GlobalInitC _ f => o = f
  | RegionalC _ f => o = f t r
  | RegionalInitC _ f => o = f r
  | RegionalSoftEqC _ l rh e a ig => ig t r = false /\ exists u, o = soft_con e a (l t r) (rh t r) u
  end.
Lemma outs_cases (P : rule_out -> Prop) p c :
  P Skip ->
  (forall t r o, (t <= tf p)%nat -> (match c with RegionalC _ _ | RegionalInitC _ _ | RegionalSoftEqC _ _ _ _ _ _ => In r (regions p) | _ => True end) ->
     rule_at c t r o -> P o) ->
  forall o, In o (outs p c) -> P o.
Proof.
  intros PS H o Ho. unfold outs in Ho. apply in_flat_map in Ho as [nc [Hnc Ho]].
  destruct c as [n f|n f|n f|n f|n l rh e a ig]; cbn [to_pyomo In] in Hnc.
  - destruct Hnc as [<-|[]]. cbn [outputs snd] in Ho.
    apply in_map_iff in Ho as [t [<- Ht]]. apply in_seq in Ht. apply (H t ""); [lia|exact I|reflexivity].
  - destruct Hnc as [<-|[]]. cbn in Ho. destruct Ho as [<-|[]]. apply (H 0%nat ""); [lia|exact I|reflexivity].
  - destruct Hnc as [<-|[]]. cbn [outputs snd] in Ho. apply in_flat_map in Ho as [t [Ht Ho]].
    apply in_map_iff in Ho as [r [<- Hr]]. apply in_seq in Ht. apply (H t r); [lia|auto|reflexivity].
  - destruct Hnc as [<-|[]]. cbn [outputs snd] in Ho. apply in_map_iff in Ho as [r [<- Hr]].
    apply (H 0%nat r); [lia|auto|reflexivity].
  - destruct Hnc as [<-|[<-|[]]]; cbn [outputs snd] in Ho; apply in_flat_map in Ho as [t [Ht Ho]];
      apply in_map_iff in Ho as [r [<- Hr]]; apply in_seq in Ht;
      (destruct (ig t r) eqn:Hi; cbn [negb]; [exact PS|]); apply (H t r); auto; try lia; split; auto; eauto.
Qed.

Lemma Forall_outs (P : rule_out -> Prop) p l :
  Forall (fun c => forall o, In o (outs p c) -> P o) l <->
  (forall c o, In c l -> In o (outs p c) -> P o).
Proof. rewrite Forall_forall. firstorder. Qed.

Ltac vgo :=
  repeat match goal with
  | |- _ /\ _ => split
  | |- True => exact I
  | |- evars _ _ (esum _ _) => apply evars_esum; intros ? ?
  | |- evars _ _ (soft_min _ _) => apply evars_soft_min
  | |- evars _ _ (soft_max _ _ _) => apply evars_soft_max
  | |- evars _ _ _ => progress cbn [evars]
  | |- evars _ _ _ => progress unfold rhs_eps, slr_thermal_expansion, slr_gsic, slr_gis, MAC, AC, calc_dKdt, calc_GDP, calc_utility, pop_sumE, popE
  | |- ok_g _ _ _ => split; [try reflexivity|auto; try lia]
  | |- ok_r _ _ _ _ => split; [try reflexivity|split; [auto; try lia|auto]]
  | |- declared_r _ _ = true => unfold declared_r
  | |- declared_g _ _ = true => unfold declared_g
  end; auto.

Section C19.
  Variable p : pars.
  Notation ok := (rvars (ok_g p) (ok_r p)).

  Lemma ok_functional d x r e : functional_form d x r = Ok e -> evars (ok_g p) (ok_r p) x -> evars (ok_g p) (ok_r p) e.
  Proof.
    unfold functional_form. intros H Hx.
    destruct (str_contains "Linear" (d_form d r)); [injection H as <-; vgo|].
    destruct (str_contains "Quadratic" (d_form d r)); [injection H as <-; vgo|].
    destruct (str_contains "Logistic" (d_form d r)); [injection H as <-|discriminate].
    unfold logistic. vgo.
  Qed.
  Lemma ok_damage d x x0 r lhs k :
    evars (ok_g p) (ok_r p) x -> evars (ok_g p) (ok_r p) x0 -> evars (ok_g p) (ok_r p) lhs ->
    ok (con_result lhs (do e <- damage_fct d x x0 r; Ok (ENum k * e)%E)).
  Proof.
    intros Hx Hx0 Hl. unfold damage_fct.
    destruct (functional_form d x r) as [a|] eqn:Ea; cbn [bind con_result]; [|exact I].
    destruct (functional_form d x0 r) as [b|] eqn:Eb; cbn [bind con_result]; [|exact I].
    cbn [rvars]. split; auto. vgo; eapply ok_functional; eauto.
  Qed.

  Ltac start := repeat (apply Forall_cons; [intros o Ho; revert o Ho; apply outs_cases;
      [exact I|intros t r o Ht Hr Ho; cbn [rule_at] in Ho]|]); try apply Forall_nil.
  Ltac dprev t := destruct t as [|?s]; cbn [prev]; [exact I|].
  Ltac one := subst; hnf; vgo.

  Lemma ok_emissions : Forall (fun c => forall o, In o (outs p c) -> ok o) (emissions_constraints p).
  Proof.
    unfold emissions_constraints. start; subst; cbn [rvars].
    all: repeat match goal with |- context [if ?b then _ else _] => destruct b end.
    all: repeat match goal with |- rvars _ _ ?x => unfold x end.
    all: try (hnf; vgo; fail).
    - unfold c_baseline_emissions. destruct (use_carbon_intensity p); one.
    - unfold c_regional_abatement. destruct (Nat.ltb 0 t), (use_carbon_intensity p); one.
    - unfold c_global_emissions. destruct (Nat.ltb 0 t); one.
    - unfold c_cumulative_emissions. destruct (Nat.ltb 0 t); [|exact I]. dprev t. destruct (cum_trapz p); one.
    - unfold c_relative_cumulative_emissions. destruct (Nat.ltb 0 t); one.
    - unfold c_temperature_target. destruct (temperature_target p), (Rleb 2100 (year p t)); one.
    - unfold c_carbon_budget. destruct (budget p), (Rleb 2100 (year p t)), (Rltb (perc_reversible p) 1); one.
    - unfold c_global_inertia. destruct (inertia_global p), (Nat.ltb 0 t); try exact I. dprev t. one.
    - unfold c_regional_inertia. destruct (inertia_regional p), (Nat.ltb 0 t); try exact I. dprev t. one.
    - unfold c_global_min_level. destruct (global_min_level p); one.
    - unfold c_regional_min_level. destruct (regional_min_level p); one.
    - unfold c_non_increasing. destruct (Rltb 2100 (year_before p t) && non_increasing_after_2100 p); [|exact I].
      dprev t. one.
    - unfold c_net_zero. destruct (budget p), (Rleb 2100 (year p t) && no_pos_after_budget_year p); one.
  Qed.
  Lemma ok_slr : Forall (fun c => forall o, In o (outs p c) -> ok o) (slr_constraints p).
  Proof.
    unfold slr_constraints. start; subst; try (hnf; vgo; fail).
    - unfold c_SLR_thermal. destruct (Nat.ltb 0 t); [|exact I]. dprev t. one.
    - unfold c_SLR_GSIC. destruct (Nat.ltb 0 t); [|exact I]. dprev t. one.
    - unfold c_SLR_GIS. destruct (Nat.ltb 0 t); [|exact I]. dprev t. one.
  Qed.
  Lemma ok_damages : Forall (fun c => forall o, In o (outs p c) -> ok o) (damage_constraints p).
  Proof.
    unfold damage_constraints. destruct (dmg_module p) eqn:D.
    - unfold coacch_constraints. start; subst.
      + hnf; vgo; rewrite D; reflexivity.
      + apply ok_damage; vgo. rewrite D; reflexivity.
      + apply ok_damage; vgo. rewrite D; reflexivity.
      + unfold c_mortality. destruct (mort_oldest p r) as [[a b] c]. hnf; vgo; rewrite D; reflexivity.
      + unfold c_mortality. destruct (mort_older p r) as [[a b] c]. hnf; vgo; rewrite D; reflexivity.
      + unfold c_mortality. destruct (mort_young p r) as [[a b] c]. hnf; vgo; rewrite D; reflexivity.
      + hnf; vgo; rewrite D; reflexivity.
    - unfold nodamage_constraints. start; subst. hnf; vgo.
  Qed.
  Lemma ok_mitigation : Forall (fun c => forall o, In o (outs p c) -> ok o) (mitigation_constraints p).
  Proof.
    unfold mitigation_constraints. start; subst; try (hnf; vgo; fail).
    - unfold c_mitigation_costs, cost_balance, AC. destruct (trade p) eqn:T; hnf; vgo; rewrite T; reflexivity.
    - unfold c_emission_reduction_per_cost_unit. destruct (Nat.ltb 0 t); one.
    - unfold c_cost_per_emission_reduction_unit. destruct (Nat.ltb 0 t); one.
  Qed.
  Lemma ok_trade : Forall (fun c => forall o, In o (outs p c) -> ok o) (trade_constraints p).
  Proof.
    unfold trade_constraints. destruct (trade p) eqn:T; [constructor| |].
    - unfold globalcostpool_constraints. start; subst.
      + hnf; vgo.
      + hnf; vgo.
      + unfold c_pool_paid_for. destruct (Nat.ltb 0 t); hnf; vgo; rewrite T; reflexivity.
      + unfold c_pool_import_export_emission. destruct (Nat.ltb 0 t); hnf; vgo; rewrite T; reflexivity.
      + hnf; vgo; rewrite T; reflexivity.
    - unfold emissiontrade_constraints. start; subst.
      + hnf; vgo; rewrite T; reflexivity.
      + hnf; vgo; rewrite T; reflexivity.
      + unfold c_import_export_emission. destruct (Nat.ltb 0 t); hnf; vgo; rewrite T; reflexivity.
      + unfold c_paid_for. destruct (Nat.ltb 0 t); hnf; vgo; rewrite T; reflexivity.
      + unfold c_allowances. destruct (Nat.ltb 0 t); hnf; vgo; rewrite T; reflexivity.
  Qed.
  Lemma ok_transfer : Forall (fun c => forall o, In o (outs p c) -> ok o) (transfer_constraints p).
  Proof.
    unfold transfer_constraints. destruct (transfer p) eqn:T; [constructor|]. start; subst.
    - unfold c_zero_sum_transfer. destruct (Nat.ltb 0 t); hnf; vgo; rewrite T; reflexivity.
    - hnf; vgo; rewrite T; reflexivity.
    - hnf; vgo; rewrite T; reflexivity.
    - hnf; vgo; rewrite T; reflexivity.
  Qed.
  Lemma ok_effort : Forall (fun c => forall o, In o (outs p c) -> ok o) (effort_constraints p).
  Proof.
    unfold effort_constraints, equal_mitigation_constraint, equal_total_constraint, percapconv_constraint.
    start; destruct Ho as [Hi [b ->]]; cbn [soft_con]; clear Hi.
    - destruct b; hnf; vgo.
    - unfold rel_financial_transfer. destruct (transfer p) eqn:T; destruct b; hnf; vgo; rewrite T; reflexivity.
    - destruct (trade p) eqn:T; try exact I. destruct b; hnf; vgo; rewrite T; reflexivity.
  Qed.
  Lemma ok_cobb : Forall (fun c => forall o, In o (outs p c) -> ok o) (cobbdouglas_constraints p).
  Proof.
    unfold cobbdouglas_constraints. start; subst; try (hnf; vgo; fail).
    - unfold c_GDP_gross. destruct (Nat.ltb 0 t); one.
    - unfold c_GDP_net, financial_transfer. destruct (ignore_damages p); destruct (transfer p) eqn:T; hnf; vgo; rewrite T; reflexivity.
    - unfold c_capital_stock. destruct (Nat.ltb 0 t); [|exact I]. dprev t. one.
  Qed.
  Lemma ok_welfare : Forall (fun c => forall o, In o (outs p c) -> ok o) (welfare_constraints p).
  Proof.
    unfold welfare_constraints. destruct (welfare p); start; subst; hnf; unfold calc_utility, pop_sumE, popE; vgo.
  Qed.
  Lemma ok_objective : Forall (fun c => forall o, In o (outs p c) -> ok o) (objective_constraints p).
  Proof.
    unfold objective_constraints. start; subst; [|hnf; vgo].
    destruct (objective p); [unfold c_NPV_utility|unfold c_NPV_costs];
      (destruct (Nat.ltb 0 t); [|exact I]); dprev t; one.
  Qed.
  Lemma ok_all c o : In c (all_constraints p) -> In o (outs p c) -> ok o.
  Proof.
    revert c o. apply (Forall_outs ok p). unfold all_constraints. rewrite !Forall_app.
    repeat split; [apply ok_emissions|apply ok_slr|apply ok_damages|apply ok_mitigation|apply ok_trade
      |apply ok_transfer|apply ok_effort|apply ok_cobb|apply ok_welfare|apply ok_objective].
  Qed.
End C19.

Lemma C19_declared_variables_in_range_pf : forall p c nc o, In c (all_constraints p) ->
  In nc (to_pyomo c) -> In o (outputs (tf p) (regions p) (snd nc)) ->
  rvars (fun g t => declared_g p g = true /\ (t <= tf p)%nat)
        (fun x t r => declared_r p x = true /\ (t <= tf p)%nat /\ In r (regions p)) o.
Proof.
  intros p c nc o Hc Hnc Ho. apply (ok_all p c o Hc). unfold outs. apply in_flat_map. eauto.
Qed.

(** Feasibility depends on the declared variables at the model's indices only. *)
Lemma feasible_agree p v w :
  (forall g t, declared_g p g = true -> (t <= tf p)%nat -> gval v g t = gval w g t) ->
  (forall x t r, declared_r p x = true -> (t <= tf p)%nat -> In r (regions p) -> rval v x t r = rval w x t r) ->
  feasible p v -> feasible p w.
Proof.
  intros HG HR [A B]. split.
  - intros c nc Hc Hnc o Ho. specialize (A c nc Hc Hnc o Ho). revert A. apply sat_agree.
    pose proof (C19_declared_variables_in_range_pf p c nc o Hc Hnc Ho) as K.
    destruct o as [|a op b|x]; cbn [rvars] in *; auto.
    assert (EG' : forall g t, declared_g p g = true /\ (t <= tf p)%nat -> gval w g t = gval v g t) by (intros g t []; symmetry; auto).
    assert (ER' : forall x t r, declared_r p x = true /\ (t <= tf p)%nat /\ In r (regions p) ->
                   rval w x t r = rval v x t r) by (intros x t r (? & ? & ?); symmetry; auto).
    destruct K as [K1 K2]. split; (eapply evars_mono; [exact EG'|exact ER'|eassumption]).
  - intros t Ht. destruct (B t Ht) as (B1 & B2 & B3 & B4 & B5).
    rewrite <- !HG by auto. do 4 (split; [assumption|]).
    intros r Hr. destruct (B5 r Hr) as (C1 & C2 & C3 & C4).
    rewrite <- (HR v_relative_abatement), <- (HR v_carbonprice), <- (HR v_area_under_MAC) by auto.
    split; auto. split; auto. split; auto.
    intros D. rewrite <- HR; auto. unfold declared_r. rewrite D. reflexivity.
Qed.
