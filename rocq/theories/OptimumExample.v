(** Non-vacuity of C67 (and of C52 with the shipped files). *)
From Coquelicot Require Import Coquelicot.
From Verif Require Import PyBase NestedDict Parsers Config ConfigDefault NestedDictFacts ConfigSpec ConfigBridge ConfigLemmas TimeGrid TimeGridLemmas DataStore DataStoreLemmas
  RegionalParams Instantiate InstFacts InstantiateLemmas ConstructFacts BundledData BundledFacts BundledSigns Model ModelFacts ModelSpec WelfareSpec Build BuildLemmas DefinedFacts ExistSpec ExistLemmas ExistExo
  Loading LoadingLemmas LoadingExist EndToEnd BundledExample EndToEndExample OptimumLemmas OptimumHarm OptimumConfig BaselineRun Example.
From Coq Require Import QArith Qreals Permutation Reals Lra Lia.
Import ListNotations.
Open Scope string_scope.
Open Scope list_scope.
Open Scope R_scope.
Set Bullet Behavior "Strict Subproofs".

(** *** Two regions, the default model choices of the example: every trade, transfer and objective choice *)
Lemma ex_poverty trapz dm tr tn er we ob q : we <> inequal_aversion_general -> poverty_matters (ex true trapz dm tr tn er we ob q).
Proof. intros W. unfold poverty_matters. cbn [sr elasmu welfare ex]. split; [lra|]. split; [lra|]. intros E. contradiction. Qed.
Lemma ex_curve_lower trapz dm tr tn er we ob q r x : 12/10 <= x -> In r (regions (ex true trapz dm tr tn er we ob q)) -> (x - 6/10) * (1/5) * (x - 6/10) / 100 <= damage_curve ex_noslr r (x - 6/10).
Proof.
  intros X R. unfold damage_curve. cbn [d_form ex_noslr]. replace (str_contains "Linear" "Robust-Quadratic") with false by (vm_compute; reflexivity).
  replace (str_contains "Quadratic" "Robust-Quadratic") with true by (vm_compute; reflexivity). cbn [d_a d_b1 d_b2 ex_noslr].
  destruct (isA r); nra.
Qed.
Example C67_ex_endogenous trapz dm tr tn we ob : tr <> globalcostpool -> we <> inequal_aversion_general ->
  exists v, optimal (ex true trapz dm tr tn noregime we ob no_policy) v.
Proof.
  intros HT HW. apply C67_optimum_exists_endogenous_pf.
  - apply ex_ranges.
  - apply ex_data.
  - apply ex_choices; [exact HT|discriminate].
  - apply ex_logistic.
  - cbn. lra.
  - cbn. lra.
  - intros D r R. exists 0. intros x X. cbn [damage_scale_factor dmg_noslr T0 ex] in *. pose proof (ex_curve_lower trapz dm tr tn noregime we ob no_policy r x X R). nra.
  - reflexivity.
  - intros _. apply ex_poverty, HW.
  - apply ex_default_solution, HT.
Qed.
Example C67_ex_harm trapz dm tr we : tr <> globalcostpool -> we <> inequal_aversion_general -> we <> cost_minimising ->
  exists v, optimal (ex true trapz dm tr notransfer noregime we utility no_policy) v.
Proof.
  intros HT HW HC. apply C67_optimum_exists_harm_pf.
  - apply ex_ranges.
  - apply ex_data.
  - apply ex_choices; [exact HT|discriminate].
  - apply ex_logistic.
  - cbn. lra.
  - cbn. lra.
  - reflexivity.
  - exact HC.
  - apply ex_poverty, HW.
  - reflexivity.
  - intros _ D. exists "A". split; [left; reflexivity|]. intros M. exists (Rabs M * 500 + 12). intros x X. pose proof (Rle_abs M). pose proof (Rabs_pos M).
    cbn [damage_scale_factor dmg_noslr ex]. pose proof (ex_curve_lower trapz dm tr notransfer noregime we utility no_policy "A" x ltac:(lra) ltac:(left; reflexivity)). nra.
  - apply ex_default_solution, HT.
Qed.

(** *** The shipped files: {"time": {"dt": 10}, "model": {"damage module": "nodamage"}, "emissions": {...}} without limits *)
Definition user_b : pyval := VDict [(KStr "time", VDict [(KStr "dt", VFloat (FFin 10))]);
  (KStr "model", VDict [(KStr "damage module", VStr "nodamage")]);
  (KStr "emissions", VDict [(KStr "baseline carbon intensity", VBool false); (KStr "inertia", VDict [(KStr "regional", VBool false)]);
     (KStr "global min level", VBool false); (KStr "regional min level", VBool false); (KStr "non increasing emissions after 2100", VBool false)])].
(** Pint's answers for the default texts of initial temperature and TCRE; 1 for other texts *)
Definition pint_oracles : oracles := {|
  o_repr := o_repr py_oracles;
  o_pint := fun text unit => if String.eqb text "False" then Err ValueError
    else if String.eqb unit "(delta_degC)" then Ok (116#100)%Q else if String.eqb text "0.62 delta_degC/(TtCO2)" then Ok (62#100000)%Q else Ok 1%Q |}.
Definition unit_mega (from to : string) : result R := if String.eqb from "Mt CO2/yr" then Ok (1/1000) else Ok 1.
Definition raw_b : pyval := match check_params pint_oracles config_default user_b with Ok st => fst st | Err _ => VNone end.
Definition tree_b : ptree := match check_params pint_oracles config_default user_b with Ok st => snd st | Err _ => PNode [] end.
Definition params_b : pyval := match parse_param_values raw_b with Ok v => v | Err _ => VNone end.
Lemma distinct_b : distinct_keys user_b.
Proof. apply distinct_wfb. vm_compute. reflexivity. Qed.
Lemma accepted_b : accepted pint_oracles user_b raw_b params_b tree_b.
Proof.
  split; [exact distinct_b|]. split.
  - unfold raw_b, tree_b. assert (H : match check_params pint_oracles config_default user_b with Ok _ => true | Err _ => false end = true) by (vm_compute; reflexivity).
    destruct (check_params pint_oracles config_default user_b) as [[a b]|]; [reflexivity|discriminate].
  - unfold params_b. assert (H : match parse_param_values raw_b with Ok _ => true | Err _ => false end = true) by (vm_compute; reflexivity).
    destruct (parse_param_values raw_b); [reflexivity|discriminate].
Qed.
Lemma quantities_b : plain_quantities raw_b.
Proof.
  intros p node v P T L. pose proof (param_at_leaves _ _ _ P []) as I. cbn [app] in I.
  assert (H : forallb (fun l => match entry (snd l) "type" with
    | Some (VStr t) => if String.eqb t "quantity" then match dict_get raw_b (fst l) with Some (VStr s) => negb (has_brace s) | Some v => negb (is_dict v) | None => true end else true
    | _ => true end) (leaves schema_leaf [] config_default) = true) by (vm_compute; reflexivity).
  rewrite forallb_forall in H. specialize (H _ I). cbn [fst snd] in H. unfold has_type in T. rewrite T in H. change (String.eqb "quantity" "quantity") with true in H. cbv iota in H.
  rewrite <- lookup_dict_get, L in H. destruct v; try (split; [destruct (is_dict _); [discriminate|reflexivity]|intros ? E; discriminate E]).
  split; [reflexivity|]. intros s' E. injection E as <-. apply has_brace_false. destruct (has_brace s); [discriminate|reflexivity].
Qed.
Lemma real_b : real_numbers params_b.
Proof. intros path f. apply reals_ok. vm_compute. reflexivity. Qed.
Lemma custom_b : forall name, ~ customised params_b name.
Proof.
  intros name (x & E). assert (D : lookup params_b ["simulation"; "custom_mapping"] = Some (VDict [])) by (vm_compute; reflexivity).
  change ["simulation"; "custom_mapping"; name] with (["simulation"; "custom_mapping"] ++ [name])%list in E. rewrite lookup_app, D in E. discriminate E.
Qed.
Definition regions_b : list (key * pyval) := match lookup params_b ["regions"] with Some (VDict d) => d | _ => [] end.
Lemma lookup_b : lookup params_b ["regions"] = Some (VDict regions_b).
Proof. vm_compute. reflexivity. Qed.
Lemma names_b : forall k x, In (k, x) regions_b -> exists r, k = KStr r /\ In r image_regions.
Proof.
  assert (H : forallb (fun kx => match fst kx with KStr r => existsb (String.eqb r) image_regions | _ => false end) regions_b = true) by (vm_compute; reflexivity).
  intros k x I. rewrite forallb_forall in H. specialize (H _ I). cbn [fst] in H. destruct k as [r|z]; [|discriminate H]. apply existsb_exists in H as (r' & R1 & R2).
  apply String.eqb_eq in R2. subst r'. exists r. split; [reflexivity|exact R1].
Qed.
Lemma own_b : no_own_values regions_b.
Proof.
  assert (H : forallb (fun kx => match snd kx with VNone | VDict [] => true | _ => false end) regions_b = true) by (vm_compute; reflexivity).
  intros k x I. rewrite forallb_forall in H. specialize (H _ I). cbn [snd] in H. destruct x as [| | | | | |[|]]; try discriminate H; (split; reflexivity).
Qed.
Lemma usable_b : usable_configuration pint_oracles params_b (Q2R 2020) (Q2R 2150) 10.
Proof.
  constructor.
  - intros X. vm_compute in X. discriminate X.
  - intros X. vm_compute in X. discriminate X.
  - intros X _. exists 1. split; [|lra]. exists (VFloat (FFin 1)). split; [vm_compute; reflexivity|cbn [number]; f_equal; unfold Q2R; cbn; lra].
  - intros _. unfold Q2R. cbn. lra.
  - intros (v & q & L & _ & X & Z). vm_compute in L. injection L as <-. vm_compute in X. injection X as <-. unfold Q2R in Z. cbn in Z. lra.
  - intros (v & L & X). vm_compute in L. injection L as <-. cbn [number] in X. apply Ok_inj in X. unfold Q2R in X. cbn in X. lra.
  - intros X. vm_compute in X. discriminate X.
Qed.

(** The values of the model that the theorem asks about *)
Lemma number_b path q x : number_in params_b path x -> lookup params_b path = Some (VFloat (FFin q)) -> x = Q2R q.
Proof. intros (v & V & N) L. rewrite L in V. injection V as <-. cbn [number] in N. apply Ok_inj in N. exact N. Qed.
Lemma quantity_b path unit s q x : quantity_in pint_oracles params_b path unit x -> lookup params_b path = Some (VStr s) -> quant pint_oracles (VStr s) (VStr unit) true = Ok (Some q) -> x = Q2R q.
Proof. intros (v & q' & V & _ & Q1 & E) L Q2. rewrite L in V. injection V as <-. rewrite Q2 in Q1. apply Ok_inj in Q1. injection Q1 as <-. exact E. Qed.
Lemma off_b path (x : option R) : LoadingLemmas.limit_in params_b path x -> lookup params_b path = Some (VBool false) -> x = None.
Proof. intros H L. destruct x as [y|]; [|reflexivity]. exfalso. destruct H as (v & V & N). rewrite L in V. injection V as <-. discriminate N. Qed.
Lemma qoff_b path unit (x : option R) : optional_quantity_in pint_oracles params_b path unit x -> lookup params_b path = Some (VBool false) -> x = None.
Proof. intros H L. destruct x as [y|]; [|reflexivity]. exfalso. destruct H as (v & q & V & X & _). rewrite L in V. injection V as <-. congruence. Qed.

(** The run without abatement and an optimal plan exist for this configuration. *)
Example C67_ex_shipped : exists inst p, construct pint_oracles bundled (fun l => l) unit_mega curve empty_caches user_b = Ok inst /\ loads inst p /\
  (exists v, feasible p v /\ forall t r, model_step p t -> In r (regions p) -> regional_emissions v t r = baseline_emissions p t r) /\ exists v, optimal p v.
Proof.
  destruct (C67_shipped_baseline_pf pint_oracles (fun l => l) unit_mega curve [] user_b raw_b params_b tree_b regions_b 2020%Q 2150%Q accepted_b) as (inst & H & PE & (p & L) & K).
  - intros q Hq. cbn [In] in Hq. repeat (destruct Hq as [<-|Hq]; [reflexivity|]). destruct Hq.
  - exact quantities_b.
  - exact real_b.
  - exact custom_b.
  - exact lookup_b.
  - vm_compute. discriminate.
  - exact own_b.
  - exact names_b.
  - eexists. split; vm_compute; reflexivity.
  - eexists. split; vm_compute; reflexivity.
  - discriminate.
  - discriminate.
  - discriminate.
  - intros x (v & LV & NV). vm_compute in LV. injection LV as <-. cbn [number] in NV. apply Ok_inj in NV. subst x. unfold Q2R. cbn. lra.
  - exists 202%Z, 1%Z, 10%Q. split; [reflexivity|]. split; [|reflexivity]. eexists. split; vm_compute; reflexivity.
  - left. exists "SSP2". split; [vm_compute; reflexivity|cbn; auto].
  - exact py_prints.
  - intros unit q X. discriminate X.
  - intros l. apply Permutation_refl.
  - intros v to from _. unfold unit_mega. destruct (String.eqb from "Mt CO2/yr"); eauto.
  - intros v to from k _ E. unfold unit_mega in E. destruct (String.eqb from "Mt CO2/yr"); apply Ok_inj in E; subst; lra.
  - exact curve_defined.
  - exact curve_points.
  - reflexivity.
  - intros disk a [].
  - pose proof (C60_configuration_reaches_model_pf _ _ _ _ _ _ _ _ _ distinct_b H ltac:(rewrite PE; exact custom_b) L) as CF. rewrite PE in CF.
    pose proof (number_b _ 10%Q _ (cf_dt _ _ _ CF) ltac:(vm_compute; reflexivity)) as D.
    pose proof (number_b _ (3#10)%Q _ (cf_alpha _ _ _ CF) ltac:(vm_compute; reflexivity)) as AL.
    pose proof (quantity_b _ _ "1.16 delta_degC" (116#100)%Q _ (cf_T0 _ _ _ CF) ltac:(vm_compute; reflexivity) ltac:(vm_compute; reflexivity)) as HT0.
    pose proof (quantity_b _ _ "0.62 delta_degC/(TtCO2)" (62#100000)%Q _ (cf_TCRE _ _ _ CF) ltac:(vm_compute; reflexivity) ltac:(vm_compute; reflexivity)) as HC.
    pose proof (quantity_b _ _ "2601 USD2005/tCO2" 1%Q _ (cf_gamma _ _ _ CF) ltac:(vm_compute; reflexivity) ltac:(vm_compute; reflexivity)) as HG.
    pose proof (number_b _ 0%Q _ (cf_min_costs _ _ _ CF) ltac:(vm_compute; reflexivity)) as HM.
    assert (ND : dmg_module p = nodamage).
    { pose proof (cf_damage _ _ _ CF) as X. unfold text_in in X. destruct (dmg_module p); [vm_compute in X; discriminate X|reflexivity]. }
    assert (HR : effort_regime p = noregime).
    { pose proof (cf_regime _ _ _ CF) as X. unfold text_in in X. destruct (effort_regime p); [reflexivity| | |]; vm_compute in X; discriminate X. }
    assert (DD : dt p = 10) by (rewrite D; unfold Q2R; cbn; lra).
    assert (TF : INR (tf p) * dt p < 140).
    { destruct (cf_end _ _ _ CF) as (stop & S1 & S2). destruct (S1) as (v & V & N). vm_compute in V. injection V as <-. cbn [number] in N. apply Ok_inj in N.
      destruct (cf_start _ _ _ CF) as (v' & V' & N'). vm_compute in V'. injection V' as <-. cbn [number] in N'. apply Ok_inj in N'.
      unfold year in S2. rewrite N, N', DD in S2. rewrite DD. destruct (S2 ltac:(lra) ltac:(lra)) as [_ S3]. lra. }
    specialize (K p (T0 p + TCRE p * (112 * 140)) L). rewrite DD in K at 1.
    assert (E0 : T0 p = 116/100) by (rewrite HT0; unfold Q2R; cbn; lra). assert (E1 : TCRE p = 62/100000) by (rewrite HC; unfold Q2R; cbn; lra).
    destruct K as [(v & F & E) O].
    + exact usable_b.
    + pose proof (cf_intensity _ _ _ CF) as X. unfold flag_in in X. vm_compute in X. injection X as X. symmetry. exact X.
    + split; [exact (qoff_b _ _ _ (cf_target _ _ _ CF) ltac:(vm_compute; reflexivity))|]. split; [exact (qoff_b _ _ _ (cf_budget _ _ _ CF) ltac:(vm_compute; reflexivity))|].
      split; [intros l E; rewrite (qoff_b _ _ _ (cf_global_min _ _ _ CF) ltac:(vm_compute; reflexivity)) in E; discriminate E|].
      split; [intros l E; rewrite (qoff_b _ _ _ (cf_regional_min _ _ _ CF) ltac:(vm_compute; reflexivity)) in E; discriminate E|].
      split; [exact (off_b _ _ (cf_inertia_global _ _ _ CF) ltac:(vm_compute; reflexivity))|]. split; [exact (off_b _ _ (cf_inertia_regional _ _ _ CF) ltac:(vm_compute; reflexivity))|].
      split; [pose proof (cf_non_increasing _ _ _ CF) as X; unfold flag_in in X; vm_compute in X; injection X as X; symmetry; exact X|]. split; [exact HR|]. rewrite HM. unfold Q2R. cbn. lra.
    + rewrite AL. unfold Q2R. cbn. lra.
    + rewrite HG. unfold Q2R. cbn. lra.
    + lra.
    + lra.
    + rewrite E1. nra.
    + rewrite DD, E0, E1. lra.
    + intros X. rewrite ND in X. discriminate X.
    + exists inst, p. split; [exact H|]. split; [exact L|]. split; [|exact O]. exists v. split; [exact F|]. intros t r T R. apply (E t r T R).
Qed.

(** The default configuration with dt = 10 meets [well_posed]: all 26 regions, endogenous emissions, COACCH damages. *)
Example well_posed10 : well_posed py_oracles params10 regions10.
Proof.
  constructor.
  - intros x (v & V & N). vm_compute in V. injection V as <-. cbn [number] in N. apply Ok_inj in N. subst x. unfold Q2R. cbn. lra.
  - right. split; [vm_compute; reflexivity|]. split; [intros X; vm_compute in X; discriminate X|]. split; [vm_compute; reflexivity|].
    split; [intros x (v & V & N); vm_compute in V; injection V as <-; cbn [number] in N; apply Ok_inj in N; subst x; unfold Q2R; cbn; lra|].
    split; [intros X; vm_compute in X; discriminate X|].
    split; [intros x (v & V & N); vm_compute in V; injection V as <-; cbn [number] in N; apply Ok_inj in N; subst x; unfold Q2R; cbn; lra|].
    split; [intros x (v & q & V & _ & X & ->); vm_compute in V; injection V as <-; vm_compute in X; injection X as <-; unfold Q2R; cbn; lra|].
    split; [intros x (v & V & N); vm_compute in V; injection V as <-; cbn [number] in N; apply Ok_inj in N; subst x; unfold Q2R; cbn; lra|].
    assert (E : existsb (fun kx => match fst kx with KStr r => existsb (String.eqb r) harmed_regions | _ => false end) regions10 = true) by (vm_compute; reflexivity).
    apply existsb_exists in E as ([k x] & I & E). destruct k as [r|]; [|discriminate E]. cbn [fst] in E. apply existsb_exists in E as (r' & R & E). apply String.eqb_eq in E. subst r'. exists r, x. split; [exact I|exact R].
Qed.
