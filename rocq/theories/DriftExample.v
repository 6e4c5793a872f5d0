(** Non-vacuity of C69. *)
From Coquelicot Require Import Coquelicot.
From Verif Require Import PyBase NestedDict Parsers Config ConfigDefault NestedDictFacts ConfigSpec ConfigBridge ConfigLemmas TimeGrid TimeGridLemmas DataStore DataStoreLemmas
  RegionalParams Instantiate InstFacts InstantiateLemmas ConstructFacts BundledData BundledFacts BundledSigns Model ModelFacts ModelSpec SoftFacts WelfareSpec Build BuildLemmas DefinedFacts Simulate SimFacts ExistSpec ExistFacts ExistLemmas
  ExistExo Loading LoadingLemmas LoadingExist EndToEnd BundledExample EndToEndExample DeterminedData BaselineRun PolicySpec DominanceSpec DominanceLemmas DominanceConfig DriftSpec DriftLemmas DriftExist DriftConfig Example OptimumExample.
From Coq Require Import QArith Qreals Permutation Reals Lra Lia.
Import ListNotations.
Open Scope string_scope.
Open Scope list_scope.
Open Scope R_scope.
Set Bullet Behavior "Strict Subproofs".

Lemma root_half x y : 0 <= y -> 0 < x -> y * y <= x -> y <= Rpower x (1/2).
Proof.
  intros Hy Hx H. replace (1/2) with (/2) by lra. rewrite Rpower_sqrt by exact Hx. rewrite <- (sqrt_square y Hy). apply sqrt_le_1; [nra|lra|exact H].
Qed.
Lemma root_half_le x y : 0 <= y -> 0 < x -> x <= y * y -> Rpower x (1/2) <= y.
Proof.
  intros Hy Hx H. replace (1/2) with (/2) by lra. rewrite Rpower_sqrt by exact Hx. rewrite <- (sqrt_square y Hy). apply sqrt_le_1; [lra|nra|exact H].
Qed.

Section Two.
  Variables (trapz : bool) (dm : damage_module) (tr : trade_module) (tn : transfer_module) (er : regime)
    (we : welfare_module) (ob : objective_module) (q : policy).
  Notation p := (ex true trapz dm tr tn er we ob q).
  Lemma two_growth r : growth_between p r 1 1.
  Proof. intros t _. cbn [baseline_GDP ex]. lra. Qed.
  Lemma two_ratio r : capital_ratio_at_most p r 1 (465/100).
  Proof. unfold capital_ratio_at_most. rewrite ex_survival. cbn [init_capital_factor dt sr ex]. lra. Qed.
  Lemma two_smoothing r : In r (regions p) -> smoothing_at_most p r (1/100).
  Proof.
    intros Hr. apply smoothing_bound with 40; try (cbn; lra).
    - apply ex_data.
    - exact Hr.
    - intros t _. cbn [baseline_GDP ex]. unfold ex_GDP. destruct (isA r); lra.
  Qed.
  Lemma two_power : 1 <= Rpower 2 (3/10) <= 15/10.
  Proof.
    split; [rewrite <- (Rpower_O 2) by lra; apply Rle_Rpower; lra|].
    apply Rle_trans with (Rpower 2 (1/2)); [apply Rle_Rpower; lra|apply root_half_le; lra].
  Qed.
  (** A ceiling that leaves room for gains of 5%. *)
  Lemma two_ceiling mu : 0 <= mu <= 105/100 -> capital_ceiling p 1 (465/100) (1/100) mu 2.
  Proof.
    intros Hm. split; [lra|]. rewrite ex_survival. cbn [dt sr alpha ex]. pose proof two_power as [X Y].
    assert (mu * Rpower 2 (3/10) <= 105/100 * (15/10)) by (apply Rmult_le_compat; lra). lra.
  Qed.
  Lemma two_power_low : 1/2 <= Rpower (1/4) (3/10).
  Proof.
    apply Rle_trans with (Rpower (1/4) (1/2)); [apply root_half; lra|].
    unfold Rpower. apply Rlt_le, exp_increasing. assert (ln (1/4) < 0) by (rewrite <- ln_1; apply ln_increasing; lra). nra.
  Qed.
  Lemma two_floor : capital_floor p 1 (3/4) (1/4).
  Proof. split; [lra|]. rewrite ex_survival. cbn [alpha ex]. pose proof two_power_low. lra. Qed.
  Lemma two_cum t : 0 <= baseline_cumulative p t <= 200 * INR t.
  Proof.
    induction t as [|t IH]; [cbn; lra|]. rewrite S_INR. cbn [baseline_cumulative]. unfold total. rewrite !ex_sum. cbn [dt cum_trapz baseline_emissions ex].
    destruct trapz; lra.
  Qed.
  Lemma two_within mu : 0 <= mu <= 105/100 -> grows_within p mu (1/100) 2.
  Proof.
    intros Hm r Hr. exists 1, 1, (465/100). split; [apply two_growth|]. split; [apply two_ratio|]. split; [apply two_smoothing, Hr|apply two_ceiling, Hm].
  Qed.
End Two.

(** Every feasible plan in which costs and damages stay below a quarter of GDP and gains below 5%. *)
Example C69_ex_bounds trapz dm tr tn er we ob q v : let p := ex true trapz dm tr tn er we ob q in
  feasible p v -> (forall t r, (0 < t <= 20)%nat -> In r (regions p) -> 3/4 * GDP_gross v t r <= GDP_net v t r <= 105/100 * GDP_gross v t r) ->
  forall t r, (t <= 20)%nat -> In r (regions p) -> 1/2 * baseline_GDP p t r <= GDP_gross v t r <= 16/10 * baseline_GDP p t r.
Proof.
  intros p F N t r Ht Hr. assert (PD : EconLemmas.positive_data p) by apply ex_data.
  pose proof (C69_GDP_ceiling_pf p v r 1 1 (465/100) (1/100) (105/100) 2 F Hr ltac:(cbn; lra) ltac:(cbn; lra) ltac:(cbn; lra) ltac:(cbn; lra) PD ltac:(lra)
    (two_growth _ _ _ _ _ _ _ _ r) (two_ratio _ _ _ _ _ _ _ _ r) (two_smoothing _ _ _ _ _ _ _ _ r Hr) (two_ceiling _ _ _ _ _ _ _ _ (105/100) ltac:(lra)) (fun s Hs => proj2 (N s r Hs Hr)) t Ht) as U.
  pose proof (C69_GDP_floor_pf p v r 1 1 (3/4) (1/4) F Hr ltac:(cbn; lra) ltac:(cbn; lra) ltac:(cbn; lra) ltac:(cbn; lra) PD ltac:(lra) ltac:(lra)
    (two_growth _ _ _ _ _ _ _ _ r) (two_floor _ _ _ _ _ _ _ _) (fun s Hs => proj1 (N s r Hs Hr)) t Ht) as Lo.
  cbn [alpha baseline_GDP ex p] in *. pose proof two_power. pose proof two_power_low. pose proof (ex_GDP_pos r). nra.
Qed.

(** The run without abatement, with and without damages, and what it looks like. *)
Example C69_ex_run trapz dm tr tn we ob : tr <> globalcostpool -> let p := ex true trapz dm tr tn noregime we ob no_policy in
  exists v, feasible p v /\ (forall t r, model_step p t -> In r (regions p) -> relative_abatement v t r = 0) /\ forall t, model_step p t -> temperature v t <= 6.
Proof.
  intros HT p. destruct (C69_no_policy_run_exists_pf p (105/100) (1/100) 2 6) as (v & F & Z & T).
  - apply ex_ranges.
  - apply ex_data.
  - apply ex_choices; [exact HT|discriminate].
  - apply ex_logistic.
  - cbn; lra.
  - reflexivity.
  - unfold no_limits, p; cbn. repeat split; try (intros; discriminate); lra.
  - intros; cbn; lra.
  - intros r Hr; cbn. destruct (isA r); lra.
  - cbn; lra.
  - cbn; lra.
  - cbn; lra.
  - lra.
  - apply two_within. lra.
  - intros t Ht. unfold model_step in Ht. assert (B : baseline_cumulative p t <= 4000) by (apply Rle_trans with (200 * INR t); [apply two_cum|]; assert (INR t <= INR 20) by (apply le_INR; cbn in Ht; lia); replace (INR 20) with 20 in * by (cbn; lra); lra). cbn [T0 TCRE alpha ex p]. pose proof two_power. nra.
  - cbn; lra.
  - intros _ r x y R X Y. assert (D : 1 - 105/100 <= damages_at p r x y <= 1 /\ -5/10 <= damages_at p r (T0 p) y <= 7/10 /\ (transfer p = globaldamagepool -> 0 <= damages_at p r x y)) by (apply ex_damages; assumption). tauto.
  - exists v. split; [exact F|]. split; [intros t r Ht Hr; apply (Z t r Ht Hr)|intros t Ht; apply (T t Ht)].
Qed.
Example C69_ex_without_policy trapz we ob : let p := ex true trapz nodamage notrade notransfer noregime we ob no_policy in
  exists v, feasible p v /\ forall t r, (0 < t <= 20)%nat -> In r (regions p) ->
    1/2 * baseline_GDP p t r <= GDP_net v t r <= 16/10 * baseline_GDP p t r /\ 10 <= baseline v t r <= 32.
Proof.
  intros p. destruct (C69_no_policy_run_exists_pf p 1 (1/100) 2 6) as (v & F & Z & T).
  - apply ex_ranges.
  - apply ex_data.
  - apply ex_choices; discriminate.
  - apply ex_logistic.
  - cbn; lra.
  - reflexivity.
  - unfold no_limits, p; cbn. repeat split; try (intros; discriminate); lra.
  - intros; cbn; lra.
  - intros r Hr; cbn. destruct (isA r); lra.
  - cbn; lra.
  - cbn; lra.
  - cbn; lra.
  - lra.
  - apply two_within. lra.
  - intros t Ht. unfold model_step in Ht. assert (B : baseline_cumulative p t <= 4000) by (apply Rle_trans with (200 * INR t); [apply two_cum|]; assert (INR t <= INR 20) by (apply le_INR; cbn in Ht; lia); replace (INR 20) with 20 in * by (cbn; lra); lra). cbn [T0 TCRE alpha ex p]. pose proof two_power. nra.
  - cbn; lra.
  - intros X; discriminate X.
  - exists v. split; [exact F|]. intros t r Ht Hr.
    assert (FL : capital_floor p 1 1 (1/4)) by (split; [lra|]; unfold p; rewrite ex_survival; cbn [alpha ex]; pose proof two_power_low; lra).
    destruct (C69_run_without_policy_pf p v r 1 1 (465/100) (1/100) (1/4) 2 F Hr ltac:(cbn; lra) ltac:(cbn; lra) ltac:(cbn; lra) ltac:(cbn; lra) ltac:(apply ex_data) ltac:(lra)
      (two_growth _ _ _ _ _ _ _ _ r) (two_ratio _ _ _ _ _ _ _ _ r) (two_smoothing _ _ _ _ _ _ _ _ r Hr) (two_ceiling _ _ _ _ _ _ _ _ 1 ltac:(lra)) FL eq_refl) with (t := t) as (A & _ & C).
    + intros s Hs. assert (M : model_step p s) by (unfold model_step; cbn in *; lia). split; [apply (Z s r M Hr)|]. right. unfold damage_costs. apply (Equations2.q_nodamage p v F); auto.
    + exact Ht.
    + specialize (C eq_refl ltac:(cbn; lra)). cbn [alpha baseline_GDP baseline_emissions ex p] in *. pose proof two_power. pose proof two_power_low. pose proof (ex_GDP_pos r). split; nra.
Qed.


(** *** shipped *)
Definition user_d : pyval := VDict [(KStr "time", VDict [(KStr "dt", VFloat (FFin 10))]);
  (KStr "model", VDict [(KStr "damage module", VStr "nodamage")]);
  (KStr "emissions", VDict [(KStr "inertia", VDict [(KStr "regional", VBool false)]);
     (KStr "global min level", VBool false); (KStr "regional min level", VBool false); (KStr "non increasing emissions after 2100", VBool false)])].
Definition raw_d : pyval := match check_params pint_oracles config_default user_d with Ok st => fst st | Err _ => VNone end.
Definition tree_d : ptree := match check_params pint_oracles config_default user_d with Ok st => snd st | Err _ => PNode [] end.
Definition params_d : pyval := match parse_param_values raw_d with Ok v => v | Err _ => VNone end.
Lemma distinct_d : distinct_keys user_d.
Proof. apply distinct_wfb. vm_compute. reflexivity. Qed.
Lemma accepted_d : accepted pint_oracles user_d raw_d params_d tree_d.
Proof.
  split; [exact distinct_d|]. split.
  - unfold raw_d, tree_d. assert (H : match check_params pint_oracles config_default user_d with Ok _ => true | Err _ => false end = true) by (vm_compute; reflexivity).
    destruct (check_params pint_oracles config_default user_d) as [[a b]|]; [reflexivity|discriminate].
  - unfold params_d. assert (H : match parse_param_values raw_d with Ok _ => true | Err _ => false end = true) by (vm_compute; reflexivity).
    destruct (parse_param_values raw_d); [reflexivity|discriminate].
Qed.
Lemma quantities_d : plain_quantities raw_d.
Proof.
  intros p node v P T L. pose proof (param_at_leaves _ _ _ P []) as I. cbn [app] in I.
  assert (H : forallb (fun l => match entry (snd l) "type" with
    | Some (VStr t) => if String.eqb t "quantity" then match dict_get raw_d (fst l) with Some (VStr s) => negb (has_brace s) | Some v => negb (is_dict v) | None => true end else true
    | _ => true end) (leaves schema_leaf [] config_default) = true) by (vm_compute; reflexivity).
  rewrite forallb_forall in H. specialize (H _ I). cbn [fst snd] in H. unfold has_type in T. rewrite T in H. change (String.eqb "quantity" "quantity") with true in H. cbv iota in H.
  rewrite <- lookup_dict_get, L in H. destruct v; try (split; [destruct (is_dict _); [discriminate|reflexivity]|intros ? E; discriminate E]).
  split; [reflexivity|]. intros s' E. injection E as <-. apply has_brace_false. destruct (has_brace s); [discriminate|reflexivity].
Qed.
Lemma real_d : real_numbers params_d.
Proof. intros path f. apply reals_ok. vm_compute. reflexivity. Qed.
Lemma custom_d : forall name, ~ customised params_d name.
Proof.
  intros name (x & E). assert (D : lookup params_d ["simulation"; "custom_mapping"] = Some (VDict [])) by (vm_compute; reflexivity).
  change ["simulation"; "custom_mapping"; name] with (["simulation"; "custom_mapping"] ++ [name])%list in E. rewrite lookup_app, D in E. discriminate E.
Qed.
Definition regions_d : list (key * pyval) := match lookup params_d ["regions"] with Some (VDict d) => d | _ => [] end.
Lemma lookup_d : lookup params_d ["regions"] = Some (VDict regions_d).
Proof. vm_compute. reflexivity. Qed.
Lemma names_d : forall k x, In (k, x) regions_d -> exists r, k = KStr r /\ In r image_regions.
Proof.
  assert (H : forallb (fun kx => match fst kx with KStr r => existsb (String.eqb r) image_regions | _ => false end) regions_d = true) by (vm_compute; reflexivity).
  intros k x I. rewrite forallb_forall in H. specialize (H _ I). cbn [fst] in H. destruct k as [r|z]; [|discriminate H]. apply existsb_exists in H as (r' & R1 & R2).
  apply String.eqb_eq in R2. subst r'. exists r. split; [reflexivity|exact R1].
Qed.
Lemma own_d : no_own_values regions_d.
Proof.
  assert (H : forallb (fun kx => match snd kx with VNone | VDict [] => true | _ => false end) regions_d = true) by (vm_compute; reflexivity).
  intros k x I. rewrite forallb_forall in H. specialize (H _ I). cbn [snd] in H. destruct x as [| | | | | |[|]]; try discriminate H; (split; reflexivity).
Qed.
Lemma usable_d : usable_configuration pint_oracles params_d (Q2R 2020) (Q2R 2150) 10.
Proof.
  constructor.
  - intros X. vm_compute in X. discriminate X.
  - intros X. vm_compute in X. discriminate X.
  - intros X _. exists 1. split; [|lra]. exists (VFloat (FFin 1)). split; [vm_compute; reflexivity|cbn [number]; f_equal; unfold Q2R; cbn; lra].
  - intros _. unfold Q2R. cbn. lra.
  - intros (v & q & L & _ & X & Z). vm_compute in L. injection L as <-. vm_compute in X. injection X as <-. unfold Q2R in Z. cbn in Z. lra.
  - intros (v & L & X). vm_compute in L. injection L as <-. cbn [number] in X. apply Ok_inj in X. unfold Q2R in X. cbn in X. lra.
  - intros X. vm_compute in X. discriminate X.
Qed.

(** The values of the model that the theorem asks about *)
Lemma number_d path q x : number_in params_d path x -> lookup params_d path = Some (VFloat (FFin q)) -> x = Q2R q.
Proof. intros (v & V & N) L. rewrite L in V. injection V as <-. cbn [number] in N. apply Ok_inj in N. exact N. Qed.
Lemma quantity_d path unit s q x : quantity_in pint_oracles params_d path unit x -> lookup params_d path = Some (VStr s) -> quant pint_oracles (VStr s) (VStr unit) true = Ok (Some q) -> x = Q2R q.
Proof. intros (v & q' & V & _ & Q1 & E) L Q2. rewrite L in V. injection V as <-. rewrite Q2 in Q1. apply Ok_inj in Q1. injection Q1 as <-. exact E. Qed.
Lemma off_d path (x : option R) : LoadingLemmas.limit_in params_d path x -> lookup params_d path = Some (VBool false) -> x = None.
Proof. intros H L. destruct x as [y|]; [|reflexivity]. exfalso. destruct H as (v & V & N). rewrite L in V. injection V as <-. discriminate N. Qed.
Lemma qoff_d path unit (x : option R) : optional_quantity_in pint_oracles params_d path unit x -> lookup params_d path = Some (VBool false) -> x = None.
Proof. intros H L. destruct x as [y|]; [|reflexivity]. exfalso. destruct H as (v & q & V & X & _). rewrite L in V. injection V as <-. congruence. Qed.
Lemma overrides_d : no_overrides regions_d.
Proof.
  assert (H : forallb (fun kx => match snd kx with VNone | VDict [] => true | _ => false end) regions_d = true) by (vm_compute; reflexivity).
  intros k x cat col I _. rewrite forallb_forall in H. specialize (H _ I). cbn [snd] in H. destruct x as [| | | | | |[|]]; try discriminate H; reflexivity.
Qed.

Definition unit_both (from to : string) : result R := if String.eqb from "Mt CO2/yr" then Ok (1/1000) else if String.eqb from "billion US$2005/yr" then Ok (1/1000) else Ok 1.
Lemma eight_power : Rpower 8 (3/10) <= 2.
Proof.
  apply Rle_trans with (Rpower 8 (1/3)); [apply Rle_Rpower; lra|]. replace 8 with (Rpower 2 (INR 3)) by (rewrite Rpower_pow by lra; lra).
  rewrite Rpower_mult. replace (INR 3 * (1/3)) with 1 by (cbn; lra). rewrite Rpower_1 by lra. lra.
Qed.
Example C69_ex_shipped : exists inst p, construct pint_oracles bundled (fun l => l) unit_both curve empty_caches user_d = Ok inst /\ loads inst p /\ use_carbon_intensity p = true /\
  (exists v, optimal p v) /\ forall v, optimal p v -> forall t r, model_step p t -> In r (regions p) -> relative_abatement v t r = 0.
Proof.
  destruct (C69_shipped_no_policy_pf pint_oracles (fun l => l) unit_both curve [] user_d raw_d params_d tree_d regions_d 2020%Q 2150%Q accepted_d) as (inst & H & PE & (p & L) & K).
  - intros q Hq. cbn [In] in Hq. repeat (destruct Hq as [<-|Hq]; [reflexivity|]). destruct Hq.
  - exact quantities_d.
  - exact real_d.
  - exact custom_d.
  - exact lookup_d.
  - vm_compute. discriminate.
  - exact overrides_d.
  - exact names_d.
  - eexists. split; vm_compute; reflexivity.
  - eexists. split; vm_compute; reflexivity.
  - discriminate.
  - discriminate.
  - discriminate.
  - intros x (v & LV & NV). vm_compute in LV. injection LV as <-. cbn [number] in NV. apply Ok_inj in NV. subst x. unfold Q2R. cbn. lra.
  - exists 202%Z, 1%Z, 10%Q. split; [reflexivity|]. split; [|reflexivity]. eexists. split; vm_compute; reflexivity.
  - left. exists "SSP2". split; [vm_compute; reflexivity|cbn; auto].
  - exact py_prints.
  - intros unit q X. discriminate X.
  - intros l. apply Permutation_refl.
  - intros v to from _. unfold unit_both. destruct (String.eqb from "Mt CO2/yr"); [eauto|]. destruct (String.eqb from "billion US$2005/yr"); eauto.
  - intros v to from k _ E. unfold unit_both in E. destruct (String.eqb from "Mt CO2/yr"); [|destruct (String.eqb from "billion US$2005/yr")]; apply Ok_inj in E; subst; lra.
  - exact curve_defined.
  - exact curve_points.
  - reflexivity.
  - reflexivity.
  - intros disk a [].
  - pose proof (C60_configuration_reaches_model_pf _ _ _ _ _ _ _ _ _ distinct_d H ltac:(rewrite PE; exact custom_d) L) as CF. rewrite PE in CF.
    pose proof (number_d _ 10%Q _ (cf_dt _ _ _ CF) ltac:(vm_compute; reflexivity)) as D.
    pose proof (number_d _ (3#10)%Q _ (cf_alpha _ _ _ CF) ltac:(vm_compute; reflexivity)) as AL.
    pose proof (quantity_d _ _ "1.16 delta_degC" (116#100)%Q _ (cf_T0 _ _ _ CF) ltac:(vm_compute; reflexivity) ltac:(vm_compute; reflexivity)) as HT0.
    pose proof (quantity_d _ _ "0.62 delta_degC/(TtCO2)" (62#100000)%Q _ (cf_TCRE _ _ _ CF) ltac:(vm_compute; reflexivity) ltac:(vm_compute; reflexivity)) as HC.
    pose proof (quantity_d _ _ "2601 USD2005/tCO2" 1%Q _ (cf_gamma _ _ _ CF) ltac:(vm_compute; reflexivity) ltac:(vm_compute; reflexivity)) as HG.
    pose proof (number_d _ 0%Q _ (cf_min_costs _ _ _ CF) ltac:(vm_compute; reflexivity)) as HM.
    assert (ND : dmg_module p = nodamage).
    { pose proof (cf_damage _ _ _ CF) as X. unfold text_in in X. destruct (dmg_module p); [vm_compute in X; discriminate X|reflexivity]. }
    assert (HR : effort_regime p = noregime).
    { pose proof (cf_regime _ _ _ CF) as X. unfold text_in in X. destruct (effort_regime p); [reflexivity| | |]; vm_compute in X; discriminate X. }
    assert (DD : dt p = 10) by (rewrite D; unfold Q2R; cbn; lra).
    assert (TF : INR (tf p) * dt p < 140).
    { destruct (cf_end _ _ _ CF) as (stop & S1 & S2). destruct (S1) as (v & V & N). vm_compute in V. injection V as <-. cbn [number] in N. apply Ok_inj in N.
      destruct (cf_start _ _ _ CF) as (v' & V' & N'). vm_compute in V'. injection V' as <-. cbn [number] in N'. apply Ok_inj in N'.
      unfold year in S2. rewrite N, N', DD in S2. rewrite DD. destruct (S2 ltac:(lra) ltac:(lra)) as [_ S3]. lra. }
    assert (E0 : T0 p = 116/100) by (rewrite HT0; unfold Q2R; cbn; lra). assert (E1 : TCRE p = 62/100000) by (rewrite HC; unfold Q2R; cbn; lra).
    assert (EA : alpha p = 3/10) by (rewrite AL; unfold Q2R; cbn; lra).
    assert (ES : sr p = 21/100) by (rewrite (number_d _ (21#100)%Q _ (cf_sr _ _ _ CF) ltac:(vm_compute; reflexivity)); unfold Q2R; cbn; lra).
    assert (EK : dk p = 5/100) by (rewrite (number_d _ (1#20)%Q _ (cf_dk _ _ _ CF) ltac:(vm_compute; reflexivity)); unfold Q2R; cbn; lra).
    assert (CI : use_carbon_intensity p = true) by (pose proof (cf_intensity _ _ _ CF) as X; unfold flag_in in X; vm_compute in X; injection X as X; symmetry; exact X).
    assert (TP : transfer p = notransfer) by (pose proof (cf_transfer _ _ _ CF) as X; unfold text_in in X; destruct (transfer p); [reflexivity|vm_compute in X; discriminate X]).
    assert (TR : trade p = notrade) by (pose proof (cf_trade _ _ _ CF) as X; unfold text_in in X; destruct (trade p); [reflexivity| |]; vm_compute in X; discriminate X).
    assert (SV : survival p = 95/100 * (95/100) * (95/100) * (95/100) * (95/100) * (95/100) * (95/100) * (95/100) * (95/100) * (95/100)).
    { unfold survival. rewrite DD, EK. change (exp (10 * ln (1 - 5/100))) with (Rpower (1 - 5/100) 10). replace 10 with (INR 10) by (cbn; lra). rewrite Rpower_pow by lra. cbn [pow]. lra. }
    assert (GA : shipped_growth_allows p (1/4) (75/10) 8).
    { unfold shipped_growth_allows, capital_ceiling. rewrite SV, DD, ES, EA. replace (10/10) with 1 by lra. rewrite !Rpower_1 by lra.
      pose proof eight_power as X. split; [lra|]. split; [lra|]. split; [lra|]. split; [lra|]. split; [lra|]. lra. }
    specialize (K p (1/4) (75/10) 8 (T0 p + TCRE p * (25/10 * (112 * 140))) L). rewrite DD in K at 1.
    destruct K as [_ K].
    + exact usable_d.
    + exact CI.
    + split; [exact (qoff_d _ _ _ (cf_target _ _ _ CF) ltac:(vm_compute; reflexivity))|]. split; [exact (qoff_d _ _ _ (cf_budget _ _ _ CF) ltac:(vm_compute; reflexivity))|].
      split; [intros l E; rewrite (qoff_d _ _ _ (cf_global_min _ _ _ CF) ltac:(vm_compute; reflexivity)) in E; discriminate E|].
      split; [intros l E; rewrite (qoff_d _ _ _ (cf_regional_min _ _ _ CF) ltac:(vm_compute; reflexivity)) in E; discriminate E|].
      split; [exact (off_d _ _ (cf_inertia_global _ _ _ CF) ltac:(vm_compute; reflexivity))|]. split; [exact (off_d _ _ (cf_inertia_regional _ _ _ CF) ltac:(vm_compute; reflexivity))|].
      split; [pose proof (cf_non_increasing _ _ _ CF) as X; unfold flag_in in X; vm_compute in X; injection X as X; symmetry; exact X|]. split; [exact HR|]. rewrite HM. unfold Q2R. cbn. lra.
    + rewrite EA. lra.
    + rewrite HG. unfold Q2R. cbn. lra.
    + lra.
    + lra.
    + exact GA.
    + rewrite EA. pose proof eight_power. pose proof (exp_pos (3/10 * ln 8)) as X. change (exp (3/10 * ln 8)) with (Rpower 8 (3/10)) in X.
      apply Rplus_le_compat_l, Rmult_le_compat_l; [rewrite E1; lra|]. apply Rmult_le_compat; try lra. assert (0 <= INR (tf p) * dt p) by (rewrite DD; pose proof (pos_INR (tf p)); lra). lra.
    + rewrite DD, E0, E1. lra.
    + left. exact ND.
    + exact TP.
    + destruct K as [(v & O & _) W]; [rewrite ES; lra|left; exact ND|exact TR|].
      exists inst, p. split; [exact H|]. split; [exact L|]. split; [exact CI|]. split; [exists v; exact O|]. intros v' O' t r T R. apply (W v' O' t r T R).
Qed.
