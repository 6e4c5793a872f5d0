(** C65: the numbers of the saved table, looked up by the names in the file, satisfy the equations of the documentation. *)
From Coq Require Import Lra Lia.
From Verif Require Import ModelFacts SoftFacts ModelSpec Equations Equations2 Build BuildFacts EconLemmas IndicatorLemmas SimMode SimModeLemmas Export ExportLemmas.
Set Bullet Behavior "Strict Subproofs".
Open Scope R_scope.

(** *** Specification *)
(** What a reader of the table sees: [G name t] is the number in the row of the variable and "Global", [V name t r] the one in
    the row of the variable and the region, in the column of the t-th model year. *)
Definition reads_as (tab : list row) (n : nat) (G : string -> nat -> R) (V : string -> nat -> string -> R) : Prop :=
  forall line t, In line tab -> (t <= n)%nat ->
    (r_region line = "Global"%string -> nth t (r_values line) 0 = G (r_variable line) t) /\
    (r_region line <> "Global"%string -> nth t (r_values line) 0 = V (r_variable line) t (r_region line)).

Section Read.
  Variables (p : pars) (unit_of : string -> string) (v : point) (G : string -> nat -> R) (V : string -> nat -> string -> R).
  Hypothesis RA : reads_as (rows p unit_of v) (tf p) G V.
  Hypothesis NG : ~ In "Global"%string (regions p).

  Lemma nth_steps (f : nat -> R) n t : (t <= n)%nat -> nth t (map f (seq 0 (S n))) 0 = f t.
  Proof.
    intros L. rewrite nth_indep with (d' := f 0%nat) by (rewrite map_length, seq_length; lia). rewrite map_nth, seq_nth by lia. f_equal.
  Qed.
  Lemma read_g g t : declared_g p g = true -> (t <= tf p)%nat -> G (gname g) t = gval v g t.
  Proof.
    intros D L. destruct (proj1 (C48_table_complete_pf p unit_of v) g D) as (row & I & N & R & _ & E).
    pose proof (proj1 (RA row t I L) R) as K. rewrite E, N, nth_steps in K by exact L. congruence.
  Qed.
  Lemma not_global r : In r (regions p) -> r <> "Global"%string. Proof. intros I ->. contradiction. Qed.
  Lemma read_r x t r : declared_r p x = true -> (t <= tf p)%nat -> In r (regions p) -> V (rname x) t r = rval v x t r.
  Proof.
    intros D L M. destruct (proj1 (proj2 (C48_table_complete_pf p unit_of v)) x r D M) as (row & I & N & R & _ & E).
    pose proof (proj2 (RA row t I L)) as K. rewrite R in K. specialize (K (not_global r M)). rewrite E, N, nth_steps in K by exact L. congruence.
  Qed.
  Lemma read_p name f t r : In (name, f) (time_region_params p) -> (t <= tf p)%nat -> In r (regions p) -> V name t r = f t r.
  Proof.
    intros D L M. destruct (proj2 (proj2 (C48_table_complete_pf p unit_of v)) name f r D M) as (row & I & N & R & _ & E).
    pose proof (proj2 (RA row t I L)) as K. rewrite R in K. specialize (K (not_global r M)). rewrite E, N, nth_steps in K by exact L. congruence.
  Qed.
  Lemma read_transfer t r : (t <= tf p)%nat -> In r (regions p) -> V "financial_transfer" t r = transfer_paid p v t r.
  Proof.
    intros L M. unfold transfer_paid. destruct (transfer p) eqn:T.
    - apply (read_p "financial_transfer" (fun _ _ => 0) t r); [|exact L|exact M]. unfold time_region_params. rewrite T.
      apply in_or_app. right. apply in_or_app. right. left. reflexivity.
    - apply (read_r v_financial_transfer); [cbn; rewrite T; reflexivity|exact L|exact M].
  Qed.
  Lemma read_balance t r : (t <= tf p)%nat -> In r (regions p) -> V "import_export_mitigation_cost_balance" t r = imported_costs p v t r.
  Proof.
    intros L M. unfold imported_costs. destruct (trade p) eqn:T.
    - apply (read_p "import_export_mitigation_cost_balance" (fun _ _ => 0) t r); [|exact L|exact M]. unfold time_region_params. rewrite T.
      apply in_or_app. right. right. left. reflexivity.
    - apply (read_r v_import_export_mitigation_cost_balance); [cbn; rewrite T; reflexivity|exact L|exact M].
    - apply (read_r v_import_export_mitigation_cost_balance); [cbn; rewrite T; reflexivity|exact L|exact M].
  Qed.
  Lemma read_data t r : (t <= tf p)%nat -> In r (regions p) ->
    V "population" t r = population p t r /\ V "baseline_GDP" t r = baseline_GDP p t r /\ V "baseline_emissions" t r = baseline_emissions p t r /\
    V "baseline_carbon_intensity" t r = baseline_carbon_intensity p t r /\ V "TFP" t r = TFP p t r.
  Proof.
    intros L M. repeat split; (apply read_p; [|exact L|exact M]); unfold time_region_params; try (apply in_or_app; left; cbn; tauto).
    apply in_or_app. right. apply in_or_app. right. apply in_or_app. right. cbn. tauto.
  Qed.
End Read.

(** *** Theorems *)
(** Output, costs, consumption, capital. *)
Lemma C65_economy_pf : forall p unit_of v G V t r, feasible p v -> reads_as (rows p unit_of v) (tf p) G V -> ~ In "Global"%string (regions p) ->
  model_step p t -> In r (regions p) ->
  V "GDP_net" t r = V "GDP_gross" t r - (if ignore_damages p then 0 else V "damage_costs" t r * V "GDP_gross" t r)
                    - V "mitigation_costs" t r - V "financial_transfer" t r /\
  V "mitigation_costs" t r = V "area_under_MAC" t r + V "import_export_mitigation_cost_balance" t r /\
  V "rel_mitigation_costs" t r = V "mitigation_costs" t r / V "GDP_gross" t r /\
  V "investments" t r = sr p * V "GDP_net" t r /\
  V "consumption" t r + V "investments" t r = V "GDP_net" t r /\
  (t = 0%nat -> V "GDP_gross" t r = V "baseline_GDP" t r) /\
  ((0 < t)%nat -> V "GDP_gross" t r = V "TFP" t r * pypow (V "population" t r) (1 - alpha p) * pypow (smin 10 (V "capital_stock" t r)) (alpha p)) /\
  ((t < tf p)%nat -> V "capital_stock" (S t) r = V "capital_stock" t r
      + ((pypow (1 - dk p) (dt p) - 1) * V "capital_stock" (S t) r + dt p * V "investments" (S t) r)).
Proof.
  intros p u v G V t r F RA NG Ht Hr. unfold model_step in Ht.
  destruct (C30_accounting_pf p v t r F Ht Hr) as (E1 & E2 & E3 & E4).
  unfold GDP_net, GDP_gross, damage_costs, mitigation_costs, area_under_MAC, investments, consumption in E1, E2, E3, E4.
  rewrite (read_transfer p u v G V RA NG t r Ht Hr), (read_balance p u v G V RA NG t r Ht Hr).
  destruct (read_data p u v G V RA NG t r Ht Hr) as (D1 & D2 & _ & _ & D5).
  rewrite D1, D2, D5.
  rewrite (read_r p u v G V RA NG v_GDP_net t r eq_refl Ht Hr : V "GDP_net" t r = _), (read_r p u v G V RA NG v_GDP_gross t r eq_refl Ht Hr : V "GDP_gross" t r = _),
    (read_r p u v G V RA NG v_damage_costs t r eq_refl Ht Hr : V "damage_costs" t r = _), (read_r p u v G V RA NG v_mitigation_costs t r eq_refl Ht Hr : V "mitigation_costs" t r = _),
    (read_r p u v G V RA NG v_area_under_MAC t r eq_refl Ht Hr : V "area_under_MAC" t r = _), (read_r p u v G V RA NG v_rel_mitigation_costs t r eq_refl Ht Hr : V "rel_mitigation_costs" t r = _),
    (read_r p u v G V RA NG v_investments t r eq_refl Ht Hr : V "investments" t r = _), (read_r p u v G V RA NG v_consumption t r eq_refl Ht Hr : V "consumption" t r = _),
    (read_r p u v G V RA NG v_capital_stock t r eq_refl Ht Hr : V "capital_stock" t r = _).
  split; [exact E1|]. split; [exact E2|]. split; [apply (q_rel_mitigation p v F t r Ht Hr)|]. split; [exact E3|]. split; [exact E4|].
  split; [intros ->; apply (q_GDP_gross0 p v F r Hr)|]. split; [intros L; apply (q_GDP_gross p v F t r (conj L Ht) Hr)|].
  intros L. rewrite (read_r p u v G V RA NG v_capital_stock (S t) r eq_refl L Hr : V "capital_stock" (S t) r = _),
    (read_r p u v G V RA NG v_investments (S t) r eq_refl L Hr : V "investments" (S t) r = _).
  destruct (q_capital p v F t r L Hr) as [K K0]. rewrite K at 1. field. exact K0.
Qed.

(** Emissions, abatement, carbon price and temperature. *)
Lemma C65_emissions_pf : forall p unit_of v G V t r, feasible p v -> reads_as (rows p unit_of v) (tf p) G V -> ~ In "Global"%string (regions p) ->
  model_step p t -> In r (regions p) ->
  V "baseline" t r = (if use_carbon_intensity p then V "baseline_carbon_intensity" t r * V "GDP_net" t r else V "baseline_emissions" t r) /\
  (t = 0%nat -> V "regional_emissions" t r = V "baseline_emissions" t r /\ V "carbonprice" t r = 0) /\
  ((0 < t)%nat -> V "regional_emissions" t r = (1 - V "relative_abatement" t r) * V "baseline" t r) /\
  V "regional_emission_reduction" t r = V "baseline" t r - V "regional_emissions" t r /\
  V "carbonprice" t r = G "learning_factor" t * MAC_scaling p r * MAC_gamma p * pypow (V "relative_abatement" t r) (MAC_beta p) /\
  G "learning_factor" t = G "LBD_factor" t * G "LOT_factor" t /\
  G "LOT_factor" t = 1 / (1 + LOT_rate p) ^ t /\
  G "global_emissions" t = Rsum (V "regional_emissions" t) (regions p) /\
  G "global_rel_mitigation_costs" t = Rsum (V "mitigation_costs" t) (regions p) / Rsum (V "GDP_gross" t) (regions p) /\
  G "temperature" t = T0 p + TCRE p * G "cumulative_emissions" t /\
  G "cumulative_emissions" 0%nat = 0 /\
  ((t < tf p)%nat -> G "cumulative_emissions" (S t) = G "cumulative_emissions" t +
     if cum_trapz p then dt p * (G "global_emissions" (S t) + G "global_emissions" t) / 2 else dt p * G "global_emissions" (S t)) /\
  G "total_SLR" t = G "slr_thermal" t + G "slr_cumgsic" t + G "slr_cumgis" t.
Proof.
  intros p u v G V t r F RA NG Ht Hr. unfold model_step in Ht.
  destruct (read_data p u v G V RA NG t r Ht Hr) as (_ & _ & D3 & D4 & _). rewrite D3, D4.
  pose proof (fun s r => read_r p u v G V RA NG v_regional_emissions s r eq_refl) as RE. cbn [rname] in RE.
  pose proof (fun s r => read_r p u v G V RA NG v_mitigation_costs s r eq_refl) as RM. cbn [rname] in RM.
  pose proof (fun s r => read_r p u v G V RA NG v_GDP_gross s r eq_refl) as RY. cbn [rname] in RY.
  rewrite (Rsum_ext (V "regional_emissions"%string t) (rval v v_regional_emissions t)) by (intros; apply RE; assumption).
  rewrite (Rsum_ext (V "mitigation_costs"%string t) (rval v v_mitigation_costs t)) by (intros; apply RM; assumption).
  rewrite (Rsum_ext (V "GDP_gross"%string t) (rval v v_GDP_gross t)) by (intros; apply RY; assumption).
  rewrite (RE t r Ht Hr).
  rewrite (read_r p u v G V RA NG v_GDP_net t r eq_refl Ht Hr : V "GDP_net" t r = _), (read_r p u v G V RA NG v_baseline t r eq_refl Ht Hr : V "baseline" t r = _),
    (read_r p u v G V RA NG v_relative_abatement t r eq_refl Ht Hr : V "relative_abatement" t r = _),
    (read_r p u v G V RA NG v_regional_emission_reduction t r eq_refl Ht Hr : V "regional_emission_reduction" t r = _),
    (read_r p u v G V RA NG v_carbonprice t r eq_refl Ht Hr : V "carbonprice" t r = _).
  rewrite (read_g p u v G V RA g_learning_factor t eq_refl Ht : G "learning_factor" t = _), (read_g p u v G V RA g_LBD_factor t eq_refl Ht : G "LBD_factor" t = _),
    (read_g p u v G V RA g_LOT_factor t eq_refl Ht : G "LOT_factor" t = _), (read_g p u v G V RA g_global_emissions t eq_refl Ht : G "global_emissions" t = _),
    (read_g p u v G V RA g_global_rel_mitigation_costs t eq_refl Ht : G "global_rel_mitigation_costs" t = _),
    (read_g p u v G V RA g_temperature t eq_refl Ht : G "temperature" t = _), (read_g p u v G V RA g_cumulative_emissions t eq_refl Ht : G "cumulative_emissions" t = _),
    (read_g p u v G V RA g_cumulative_emissions 0 eq_refl (Nat.le_0_l _) : G "cumulative_emissions" 0%nat = _),
    (read_g p u v G V RA g_total_SLR t eq_refl Ht : G "total_SLR" t = _), (read_g p u v G V RA g_slr_thermal t eq_refl Ht : G "slr_thermal" t = _),
    (read_g p u v G V RA g_slr_cumgsic t eq_refl Ht : G "slr_cumgsic" t = _), (read_g p u v G V RA g_slr_cumgis t eq_refl Ht : G "slr_cumgis" t = _).
  split; [exact (q_baseline p v F t r Ht Hr)|]. split; [intros ->; split; [exact (q_emissions0 p v F r Hr)|exact (q_carbonprice0 p v F r Hr)]|].
  split; [intros L; exact (q_abatement p v F t r (conj L Ht) Hr)|]. split; [exact (q_reduction p v F t r Ht Hr)|]. split; [exact (q_carbonprice p v F t r Ht Hr)|].
  split; [exact (q_learning p v F t Ht)|]. split; [exact (q_LOT p v F t Ht)|]. split; [exact (q_global p v F t Ht)|]. split; [exact (proj1 (q_global_rel_mitigation p v F t Ht))|].
  split; [exact (q_temp p v F t Ht)|]. split; [exact (q_cum0 p v F)|].
  split; [|exact (q_slr_total p v F t Ht)].
  intros L. rewrite (read_g p u v G V RA g_global_emissions (S t) eq_refl L : G "global_emissions" (S t) = _),
    (read_g p u v G V RA g_cumulative_emissions (S t) eq_refl L : G "cumulative_emissions" (S t) = _). exact (q_cum p v F t L).
Qed.

(** Damages, trade and transfers. *)
Lemma C65_damages_and_trade_pf : forall p unit_of v G V t r, feasible p v -> reads_as (rows p unit_of v) (tf p) G V -> ~ In "Global"%string (regions p) ->
  model_step p t -> In r (regions p) ->
  (dmg_module p = COACCH -> V "damage_costs" t r = V "damage_costs_non_slr" t r + V "damage_costs_slr" t r) /\
  (dmg_module p = nodamage -> V "damage_costs" t r = 0) /\
  (trade p = emissiontrade -> Rsum (V "import_export_mitigation_cost_balance" t) (regions p) = 0 /\
    ((0 < t)%nat ->
       V "paid_for_emission_reductions" t r = V "regional_emission_reduction" t r + V "import_export_emission_reduction_balance" t r /\
       V "regional_emission_allowances" t r = V "baseline" t r - V "paid_for_emission_reductions" t r)) /\
  (transfer p = globaldamagepool -> (0 < t)%nat -> Rsum (V "financial_transfer" t) (regions p) = 0) /\
  (transfer p = globaldamagepool -> V "rel_financial_transfer" t r * V "GDP_gross" t r = V "financial_transfer" t r).
Proof.
  intros p u v G V t r F RA NG Ht Hr. unfold model_step in Ht. split; [|split; [|split; [|split]]].
  - intros E. assert (D : forall x, In x [v_damage_costs; v_damage_costs_non_slr; v_damage_costs_slr] -> declared_r p x = true).
    { intros x X. cbn [In] in X. repeat (destruct X as [<-|X]; [cbn; rewrite ?E; reflexivity|]). destruct X. }
    rewrite (read_r p u v G V RA NG v_damage_costs t r (D v_damage_costs ltac:(cbn; tauto)) Ht Hr : V "damage_costs" t r = _),
      (read_r p u v G V RA NG v_damage_costs_non_slr t r (D v_damage_costs_non_slr ltac:(cbn; tauto)) Ht Hr : V "damage_costs_non_slr" t r = _),
      (read_r p u v G V RA NG v_damage_costs_slr t r (D v_damage_costs_slr ltac:(cbn; tauto)) Ht Hr : V "damage_costs_slr" t r = _).
    exact (q_dm_total p v F E t r Ht Hr).
  - intros E. rewrite (read_r p u v G V RA NG v_damage_costs t r eq_refl Ht Hr : V "damage_costs" t r = _). exact (q_nodamage p v F t r E Ht Hr).
  - intros E. assert (D : forall x, In x [v_import_export_mitigation_cost_balance; v_paid_for_emission_reductions; v_import_export_emission_reduction_balance; v_regional_emission_allowances] -> declared_r p x = true).
    { intros x X. cbn [In] in X. repeat (destruct X as [<-|X]; [cbn; rewrite ?E; reflexivity|]). destruct X. }
    split.
    + rewrite (Rsum_ext _ (rval v v_import_export_mitigation_cost_balance t)); [exact (q_et_balance p v F E t Ht)|].
      intros s Hs. exact (read_r p u v G V RA NG v_import_export_mitigation_cost_balance t s (D v_import_export_mitigation_cost_balance ltac:(cbn; tauto)) Ht Hs).
    + intros L. rewrite (read_r p u v G V RA NG v_paid_for_emission_reductions t r (D v_paid_for_emission_reductions ltac:(cbn; tauto)) Ht Hr : V "paid_for_emission_reductions" t r = _),
        (read_r p u v G V RA NG v_import_export_emission_reduction_balance t r (D v_import_export_emission_reduction_balance ltac:(cbn; tauto)) Ht Hr : V "import_export_emission_reduction_balance" t r = _),
        (read_r p u v G V RA NG v_regional_emission_allowances t r (D v_regional_emission_allowances ltac:(cbn; tauto)) Ht Hr : V "regional_emission_allowances" t r = _),
        (read_r p u v G V RA NG v_regional_emission_reduction t r eq_refl Ht Hr : V "regional_emission_reduction" t r = _), (read_r p u v G V RA NG v_baseline t r eq_refl Ht Hr : V "baseline" t r = _).
      split; [exact (q_et_paid p v F E t r (conj L Ht) Hr)|exact (q_et_allow p v F E t r (conj L Ht) Hr)].
  - intros E L. rewrite (Rsum_ext _ (rval v v_financial_transfer t)); [exact (q_tr_zero p v F E t (conj L Ht))|].
    intros s Hs. apply (read_r p u v G V RA NG v_financial_transfer t s); [cbn; rewrite E; reflexivity|exact Ht|exact Hs].
  - intros E. rewrite (read_r p u v G V RA NG v_financial_transfer t r ltac:(cbn; rewrite E; reflexivity) Ht Hr : V "financial_transfer" t r = _),
      (read_r p u v G V RA NG v_rel_financial_transfer t r ltac:(cbn; rewrite E; reflexivity) Ht Hr : V "rel_financial_transfer" t r = _),
      (read_r p u v G V RA NG v_GDP_gross t r eq_refl Ht Hr : V "GDP_gross" t r = _). exact (q_tr_rel p v F E t r Ht Hr).
Qed.

(** Mortality, the global carbon price and the cost indicators. *)
Lemma C65_indicators_pf : forall p unit_of v G V t r, feasible p v -> reads_as (rows p unit_of v) (tf p) G V -> ~ In "Global"%string (regions p) ->
  model_step p t -> In r (regions p) ->
  let quadratic c x := fst (fst c) + snd (fst c) * x + snd c * x ^ 2 in
  (dmg_module p = COACCH ->
     V "mortality_oldest" t r = quadratic (mort_oldest p r) (G "temperature" t) /\
     V "mortality_older" t r = quadratic (mort_older p r) (G "temperature" t) /\
     V "mortality_young" t r = quadratic (mort_young p r) (G "temperature" t) /\
     V "mortality_cost_oldest" t r = V "mortality_oldest" t r * V "population" t r * 10000 * (13/10)) /\
  (trade p = emissiontrade ->
     G "global_carbonprice" t = Rsum (fun s => V "carbonprice" t s * V "population" t s) (regions p) / Rsum (V "population" t) (regions p)) /\
  ((0 < t)%nat ->
     G "global_emission_reduction_per_cost_unit" t
       = Rsum (V "regional_emission_reduction" t) (regions p) / smin 1 (Rsum (V "mitigation_costs" t) (regions p)) /\
     G "global_cost_per_emission_reduction_unit" t
       = Rsum (V "mitigation_costs" t) (regions p) / smin 1 (Rsum (V "regional_emission_reduction" t) (regions p))).
Proof.
  intros p u v G V t r F RA NG Ht Hr quadratic. unfold model_step in Ht.
  assert (PO : forall s, In s (regions p) -> V "population"%string t s = population p t s)
    by (intros s Hs; exact (proj1 (read_data p u v G V RA NG t s Ht Hs))).
  split; [|split].
  - intros E. assert (D : forall x, In x [v_mortality_oldest; v_mortality_older; v_mortality_young; v_mortality_cost_oldest] -> declared_r p x = true).
    { intros x X. cbn [In] in X. repeat (destruct X as [<-|X]; [cbn; rewrite ?E; reflexivity|]). destruct X. }
    rewrite (read_r p u v G V RA NG v_mortality_oldest t r (D v_mortality_oldest ltac:(cbn; tauto)) Ht Hr : V "mortality_oldest" t r = _),
      (read_r p u v G V RA NG v_mortality_older t r (D v_mortality_older ltac:(cbn; tauto)) Ht Hr : V "mortality_older" t r = _),
      (read_r p u v G V RA NG v_mortality_young t r (D v_mortality_young ltac:(cbn; tauto)) Ht Hr : V "mortality_young" t r = _),
      (read_r p u v G V RA NG v_mortality_cost_oldest t r (D v_mortality_cost_oldest ltac:(cbn; tauto)) Ht Hr : V "mortality_cost_oldest" t r = _),
      (read_g p u v G V RA g_temperature t eq_refl Ht : G "temperature" t = _), (PO r Hr).
    pose proof (q_mortality p v F E t r Ht Hr) as Q. unfold quadratic.
    destruct (mort_oldest p r) as [[? ?] ?], (mort_older p r) as [[? ?] ?], (mort_young p r) as [[? ?] ?]. exact Q.
  - intros E. rewrite (read_g p u v G V RA g_global_carbonprice t ltac:(cbn; rewrite E; reflexivity) Ht : G "global_carbonprice" t = _), (q_et_price p v F E t Ht).
    rewrite (Rsum_ext (V "population"%string t) (population p t) (regions p) PO). f_equal. apply Rsum_ext. intros s Hs.
    rewrite (PO s Hs), (read_r p u v G V RA NG v_carbonprice t s eq_refl Ht Hs : V "carbonprice" t s = _). reflexivity.
  - intros L. rewrite (read_g p u v G V RA g_global_emission_reduction_per_cost_unit t eq_refl Ht : G "global_emission_reduction_per_cost_unit" t = _),
      (read_g p u v G V RA g_global_cost_per_emission_reduction_unit t eq_refl Ht : G "global_cost_per_emission_reduction_unit" t = _).
    rewrite (Rsum_ext (V "mitigation_costs"%string t) (rval v v_mitigation_costs t)) by (intros s Hs; exact (read_r p u v G V RA NG v_mitigation_costs t s eq_refl Ht Hs)).
    rewrite (Rsum_ext (V "regional_emission_reduction"%string t) (rval v v_regional_emission_reduction t)) by (intros s Hs; exact (read_r p u v G V RA NG v_regional_emission_reduction t s eq_refl Ht Hs)).
    split; [apply (q_per_cost p v t F)|apply (q_cost_per p v t F)]; auto.
Qed.

(** Welfare and the objective: the last NPV of the file is the value that was optimised. *)
Lemma C65_welfare_pf : forall p unit_of v G V, feasible p v -> reads_as (rows p unit_of v) (tf p) G V -> ~ In "Global"%string (regions p) ->
  G "NPV" 0%nat = 0 /\
  (forall t, (t < tf p)%nat -> G "NPV" (S t) = G "NPV" t + dt p * exp (- PRTP p * (year p (S t) - beginyear p)) *
     match objective p with
     | utility => G "yearly_welfare" (S t)
     | globalcosts => Rsum (V "mitigation_costs" (S t)) (regions p) + Rsum (fun r => V "damage_costs" (S t) r * V "GDP_gross" (S t) r) (regions p)
     end) /\
  (welfare p = welfare_loss_minimising -> forall t, model_step p t -> G "yearly_welfare" t = Rsum (fun r => V "population" t r * V "utility" t r) (regions p)) /\
  (welfare p = cost_minimising -> forall t r, model_step p t -> In r (regions p) -> V "utility" t r = V "consumption" t r / V "population" t r).
Proof.
  intros p u v G V F RA NG.
  assert (DN : forall g, In g [g_NPV; g_yearly_welfare] -> declared_g p g = true) by (intros g [<-|[<-|[]]]; reflexivity).
  split; [|split; [|split]].
  - rewrite (read_g p u v G V RA g_NPV 0 eq_refl (Nat.le_0_l _) : G "NPV" 0%nat = _). exact (q_NPV0 p v F).
  - intros t L. rewrite (read_g p u v G V RA g_NPV (S t) eq_refl L : G "NPV" (S t) = _), (read_g p u v G V RA g_NPV t eq_refl ltac:(lia) : G "NPV" t = _),
      (read_g p u v G V RA g_yearly_welfare (S t) eq_refl L : G "yearly_welfare" (S t) = _).
    rewrite (Rsum_ext (V "mitigation_costs"%string (S t)) (rval v v_mitigation_costs (S t))) by (intros s Hs; exact (read_r p u v G V RA NG v_mitigation_costs (S t) s eq_refl L Hs)).
    rewrite (Rsum_ext (fun r => V "damage_costs"%string (S t) r * V "GDP_gross"%string (S t) r) (fun r => rval v v_damage_costs (S t) r * rval v v_GDP_gross (S t) r)).
    + exact (q_NPV p v F t L).
    + intros s Hs. rewrite (read_r p u v G V RA NG v_damage_costs (S t) s eq_refl L Hs : V "damage_costs" (S t) s = _), (read_r p u v G V RA NG v_GDP_gross (S t) s eq_refl L Hs : V "GDP_gross" (S t) s = _). reflexivity.
  - intros W t Ht. rewrite (read_g p u v G V RA g_yearly_welfare t eq_refl Ht : G "yearly_welfare" t = _). destruct (q_wlm p v F t W Ht) as [_ E]. rewrite E.
    apply Rsum_ext. intros s Hs. destruct (read_data p u v G V RA NG t s Ht Hs) as (D1 & _). rewrite D1, (read_r p u v G V RA NG v_utility t s eq_refl Ht Hs : V "utility" t s = _). reflexivity.
  - intros W t r Ht Hr. destruct (read_data p u v G V RA NG t r Ht Hr) as (D1 & _). rewrite D1, (read_r p u v G V RA NG v_utility t r eq_refl Ht Hr : V "utility" t r = _),
      (read_r p u v G V RA NG v_consumption t r eq_refl Ht Hr : V "consumption" t r = _). exact (proj1 (q_cm p v F t W Ht) r Hr).
Qed.

(** Every table can be read this way: no two rows have the same variable and region. *)
Lemma C65_readable_pf : forall p unit_of v, NoDup (regions p) -> exists G V, reads_as (rows p unit_of v) (tf p) G V.
Proof.
  intros p u v N. pose proof (C48_rows_distinct_pf p u v N) as D. set (tab := rows p u v) in *. clearbody tab.
  set (look name reg (t : nat) := match find (fun l => String.eqb (r_variable l) name && String.eqb (r_region l) reg)%bool tab with Some l => nth t (r_values l) 0 | None => 0 end).
  assert (K : forall line t, In line tab -> nth t (r_values line) 0 = look (r_variable line) (r_region line) t).
  { intros line t. subst look. cbv beta. induction tab as [|l tab IH]; [intros []|]. cbn [map] in D. inversion D as [|? ? D1 D2]; subst. cbn [find].
    destruct (String.eqb (r_variable l) (r_variable line) && String.eqb (r_region l) (r_region line))%bool eqn:E.
    - apply andb_prop in E as [E1 E2]. apply String.eqb_eq in E1, E2. intros [->|I]; [reflexivity|]. exfalso. apply D1. rewrite E1, E2.
      apply (in_map (fun row => (r_variable row, r_region row)) _ _ I).
    - intros [->|I]; [rewrite !String.eqb_refl in E; discriminate E|]. apply (IH D2 I). }
  exists (fun name t => look name "Global"%string t), (fun name t r => look name r t). intros line t I _.
  split; [intros R; rewrite <- R|intros _]; apply K, I.
Qed.
