(** C66: the instance data, and with the shipped files the configuration, determine the constraints. *)
From Verif Require Import PyBase NestedDict Parsers Config ConfigDefault NestedDictFacts ConfigSpec ConfigBridge ConfigLemmas
  TimeGrid DataStore RegionalParams Instantiate InstFacts TimeGridLemmas DataStoreLemmas RegionalParamsLemmas InstantiateLemmas ConstructFacts BundledData BundledFacts BundledSigns
  Model WelfareSpec Loading LoadingLemmas LoadingExist EndToEnd Setters2 SameInputs ScopeLemmas Determined.
From Coq Require Import Reals Lra Lia QArith Qreals Permutation.
Import ListNotations.
Open Scope string_scope.
Open Scope list_scope.
Open Scope R_scope.
Set Bullet Behavior "Strict Subproofs".

(** *** Specification *)
(** The instance data hold a number (a text, a value of the series) for the region. *)
Definition known (inst : instance) (name : string) (r : region) : Prop :=
  exists l v x, data_of inst name = Ok (ByRegion l) /\ In (r, v) l /\ number v = Ok x.
Definition known_text (inst : instance) (name : string) (r : region) (s : string) : Prop :=
  exists l, data_of inst name = Ok (ByRegion l) /\ In (r, VStr s) l.
Definition known_series (inst : instance) (name : string) (t : nat) (r : region) : Prop :=
  exists l x, data_of inst name = Ok (ByTimeAndRegion l) /\ In ((t, r), x) l.
(** The coefficients that the functional form of a region uses are numbers. *)
Definition known_damage (inst : instance) (prefix : string) (r : region) : Prop := exists form,
  known_text inst (prefix ++ "_form") r form /\ known inst (prefix ++ "_a") r /\ known inst (prefix ++ "_b1") r /\
  (str_contains "Linear" form = false -> known inst (prefix ++ "_b2") r /\ (str_contains "Quadratic" form = false -> known inst (prefix ++ "_b3") r)).
(** Every number that the model uses is among the instance data. *)
Record all_known (inst : instance) (steps : nat) (rs : list region) : Prop := {
  ak_series : forall name t r, In name ["population"; "baseline_GDP"; "baseline_emissions"] -> (t <= steps)%nat -> In r rs -> known_series inst name t r;
  ak_regional : forall name r, In name ["MAC_scaling_factor"; "init_capitalstock_factor"] -> In r rs -> known inst name r;
  ak_damage : module_is inst "damage module" "COACCH" -> forall prefix r, In prefix ["damage_noslr"; "damage_slr"] -> In r rs -> known_damage inst prefix r;
  ak_mortality : module_is inst "damage module" "COACCH" -> forall age x r, In age ["oldest"; "older"; "young"] -> In x ["a"; "b"; "c"] -> In r rs ->
    known inst ("mortality_param_" ++ age ++ "_" ++ x) r
}.

(** *** Uniqueness *)
Lemma scalar_fun inst name x y : scalar_is inst name x -> scalar_is inst name y -> x = y.
Proof. intros (v & A & B) (w & C & D). rewrite A in C. injection C as <-. rewrite B in D. injection D as <-. reflexivity. Qed.
Lemma limit_fun inst name x y : limit_is inst name x -> limit_is inst name y -> x = y.
Proof.
  intros (v & A & B) (w & C & D). rewrite A in C. injection C as <-. destruct x as [x|], y as [y|]; try (subst v; discriminate); [|reflexivity].
  rewrite B in D. injection D as <-. reflexivity.
Qed.
Lemma flag_fun inst name x y : flag_is inst name x -> flag_is inst name y -> x = y.
Proof. unfold flag_is. intros A B. rewrite A in B. injection B as <-. reflexivity. Qed.
Lemma module_fun inst which x y : module_is inst which x -> module_is inst which y -> x = y.
Proof. unfold module_is. intros A B. rewrite A in B. injection B as <-. reflexivity. Qed.
Lemma text_fun inst name x y : text_is inst name x -> text_is inst name y -> x = y.
Proof. unfold text_is. intros A B. rewrite A in B. injection B as <-. reflexivity. Qed.
Lemma regional_fun inst name f g r : known inst name r -> regional_is inst name f -> regional_is inst name g -> f r = g r.
Proof.
  intros (l & v & x & D & I & N) (l1 & D1 & F) (l2 & D2 & G). rewrite D in D1, D2. injection D1 as <-. injection D2 as <-.
  rewrite (F _ _ _ I N), (G _ _ _ I N). reflexivity.
Qed.
Lemma texts_fun inst name f r s : known_text inst name r s -> texts_are inst name f -> f r = s.
Proof. intros (l & D & I) (l1 & D1 & F). rewrite D in D1. injection D1 as <-. exact (F _ _ I). Qed.
Lemma series_fun inst name f g t r : known_series inst name t r -> series_is inst name f -> series_is inst name g -> f t r = g t r.
Proof.
  intros (l & x & D & I) (l1 & D1 & F) (l2 & D2 & G). rewrite D in D1, D2. injection D1 as <-. injection D2 as <-.
  rewrite (F _ _ _ I), (G _ _ _ I). reflexivity.
Qed.

Lemma scalars_loaded inst p q : loads inst p -> loads inst q -> scalars p = scalars q.
Proof.
  intros L M.
  assert (E3 : tf p = tf q) by (pose proof (ld_tf _ _ L) as A; rewrite (ld_tf _ _ M) in A; injection A as A; lia).
  assert (E4 : regions p = regions q) by (pose proof (ld_regions _ _ L) as A; rewrite (ld_regions _ _ M) in A; injection A as A; auto).
  assert (D : dmg_module p = dmg_module q) by (pose proof (module_fun _ _ _ _ (ld_damage_module _ _ L) (ld_damage_module _ _ M)) as X; destruct (dmg_module p), (dmg_module q); try reflexivity; discriminate X).
  assert (T : trade p = trade q) by (pose proof (module_fun _ _ _ _ (ld_trade_module _ _ L) (ld_trade_module _ _ M)) as X; destruct (trade p), (trade q); try reflexivity; discriminate X).
  assert (F : transfer p = transfer q) by (pose proof (module_fun _ _ _ _ (ld_transfer_module _ _ L) (ld_transfer_module _ _ M)) as X; destruct (transfer p), (transfer q); try reflexivity; discriminate X).
  assert (W : welfare p = welfare q) by (pose proof (module_fun _ _ _ _ (ld_welfare_module _ _ L) (ld_welfare_module _ _ M)) as X; destruct (welfare p), (welfare q); try reflexivity; discriminate X).
  assert (O : objective p = objective q) by (pose proof (module_fun _ _ _ _ (ld_objective_module _ _ L) (ld_objective_module _ _ M)) as X; destruct (objective p), (objective q); try reflexivity; discriminate X).
  assert (G : effort_regime p = effort_regime q) by (pose proof (text_fun _ _ _ _ (ld_regime _ _ L) (ld_regime _ _ M)) as X; destruct (effort_regime p), (effort_regime q); try reflexivity; discriminate X).
  unfold scalars, with_data.
  rewrite E3, E4, D, T, F, W, O, G, (scalar_fun _ _ _ _ (ld_beginyear _ _ L) (ld_beginyear _ _ M)), (scalar_fun _ _ _ _ (ld_dt _ _ L) (ld_dt _ _ M)),
    (flag_fun _ _ _ _ (ld_intensity _ _ L) (ld_intensity _ _ M)), (flag_fun _ _ _ _ (ld_trapz _ _ L) (ld_trapz _ _ M)),
    (scalar_fun _ _ _ _ (ld_T0 _ _ L) (ld_T0 _ _ M)), (scalar_fun _ _ _ _ (ld_TCRE _ _ L) (ld_TCRE _ _ M)), (limit_fun _ _ _ _ (ld_target _ _ L) (ld_target _ _ M)),
    (scalar_fun _ _ _ _ (ld_reversible _ _ L) (ld_reversible _ _ M)), (limit_fun _ _ _ _ (ld_budget _ _ L) (ld_budget _ _ M)),
    (limit_fun _ _ _ _ (ld_inertia_global _ _ L) (ld_inertia_global _ _ M)), (limit_fun _ _ _ _ (ld_inertia_regional _ _ L) (ld_inertia_regional _ _ M)),
    (limit_fun _ _ _ _ (ld_global_min _ _ L) (ld_global_min _ _ M)), (limit_fun _ _ _ _ (ld_regional_min _ _ L) (ld_regional_min _ _ M)),
    (flag_fun _ _ _ _ (ld_non_increasing _ _ L) (ld_non_increasing _ _ M)), (flag_fun _ _ _ _ (ld_no_pos _ _ L) (ld_no_pos _ _ M)),
    (scalar_fun _ _ _ _ (ld_gamma _ _ L) (ld_gamma _ _ M)), (scalar_fun _ _ _ _ (ld_beta _ _ L) (ld_beta _ _ M)), (scalar_fun _ _ _ _ (ld_min_costs _ _ L) (ld_min_costs _ _ M)),
    (scalar_fun _ _ _ _ (ld_LBD_rate _ _ L) (ld_LBD_rate _ _ M)), (scalar_fun _ _ _ _ (ld_LBD_scaling _ _ L) (ld_LBD_scaling _ _ M)), (scalar_fun _ _ _ _ (ld_LOT _ _ L) (ld_LOT _ _ M)),
    (limit_fun _ _ _ _ (ld_percapconv _ _ L) (ld_percapconv _ _ M)), (scalar_fun _ _ _ _ (ld_alpha _ _ L) (ld_alpha _ _ M)), (scalar_fun _ _ _ _ (ld_dk _ _ L) (ld_dk _ _ M)),
    (scalar_fun _ _ _ _ (ld_sr _ _ L) (ld_sr _ _ M)), (flag_fun _ _ _ _ (ld_ignore _ _ L) (ld_ignore _ _ M)), (scalar_fun _ _ _ _ (ld_elasmu _ _ L) (ld_elasmu _ _ M)),
    (scalar_fun _ _ _ _ (ld_PRTP _ _ L) (ld_PRTP _ _ M)).
  reflexivity.
Qed.

Lemma damage_loaded inst prefix rs d e : (forall r, In r rs -> known_damage inst prefix r) -> damage_is inst prefix d -> damage_is inst prefix e -> same_damage rs d e.
Proof.
  intros K (F1 & B1 & B2 & B3 & A1) (G1 & C1 & C2 & C3 & A2) r R. destruct (K r R) as (s & S & KA & KB1 & KB).
  pose proof (texts_fun _ _ _ _ _ S F1) as E1. pose proof (texts_fun _ _ _ _ _ S G1) as E2.
  split; [congruence|]. split; [exact (regional_fun _ _ _ _ _ KA A1 A2)|]. split; [exact (regional_fun _ _ _ _ _ KB1 B1 C1)|].
  rewrite E1. intros N. destruct (KB N) as [KB2 KB3]. split; [exact (regional_fun _ _ _ _ _ KB2 B2 C2)|].
  intros N2. exact (regional_fun _ _ _ _ _ (KB3 N2) B3 C3).
Qed.
Lemma triple_loaded inst age r f g : (forall x, In x ["a"; "b"; "c"] -> known inst ("mortality_param_" ++ age ++ "_" ++ x) r) ->
  triple_is inst ("mortality_param_" ++ age) f -> triple_is inst ("mortality_param_" ++ age) g -> f r = g r.
Proof.
  intros K (A1 & A2 & A3) (B1 & B2 & B3).
  assert (E : forall x, In x ["a"; "b"; "c"] -> known inst (("mortality_param_" ++ age) ++ "_" ++ x) r) by (intros x X; rewrite append_assoc'; apply K, X).
  pose proof (regional_fun _ _ _ _ _ (E "a" ltac:(cbn; auto)) A1 B1) as E1. pose proof (regional_fun _ _ _ _ _ (E "b" ltac:(cbn; auto)) A2 B2) as E2.
  pose proof (regional_fun _ _ _ _ _ (E "c" ltac:(cbn; auto)) A3 B3) as E3. cbn beta in E1, E2, E3.
  destruct (f r) as [[x y] z], (g r) as [[x' y'] z']. cbn [fst snd] in *. congruence.
Qed.

Lemma numbers_loaded inst p q : loads inst p -> loads inst q -> all_known inst (tf p) (regions p) -> same_numbers p q.
Proof.
  intros L M [K1 K2 K3 K4]. pose proof (scalars_loaded inst p q L M) as E.
  assert (D : dmg_module q = dmg_module p) by (change (dmg_module (scalars q) = dmg_module (scalars p)); rewrite E; reflexivity).
  assert (W : welfare q = welfare p) by (change (welfare (scalars q) = welfare (scalars p)); rewrite E; reflexivity).
  assert (CO : dmg_module p = COACCH -> module_is inst "damage module" "COACCH") by (intros C; pose proof (ld_damage_module _ _ L) as X; rewrite C in X; exact X).
  constructor; [exact E| | | | | | | | | | | |].
  - intros t r T R. apply (series_fun inst "population"); [apply K1; [cbn; auto|exact T|exact R]|exact (ld_population _ _ L)|exact (ld_population _ _ M)].
  - intros t r T R. apply (series_fun inst "baseline_GDP"); [apply K1; [cbn; auto|exact T|exact R]|exact (ld_GDP _ _ L)|exact (ld_GDP _ _ M)].
  - intros t r T R. apply (series_fun inst "baseline_emissions"); [apply K1; [cbn; auto|exact T|exact R]|exact (ld_emissions _ _ L)|exact (ld_emissions _ _ M)].
  - intros C. pose proof C as C'. rewrite <- D in C'. exact (scalar_fun _ _ _ _ (ld_scale _ _ L C) (ld_scale _ _ M C')).
  - intros C. pose proof C as C'. rewrite <- D in C'. apply (damage_loaded inst "damage_noslr"); [intros r R; apply K3; cbn; auto|exact (ld_noslr _ _ L C)|exact (ld_noslr _ _ M C')].
  - intros C. pose proof C as C'. rewrite <- D in C'. apply (damage_loaded inst "damage_slr"); [intros r R; apply K3; cbn; auto|exact (ld_slr _ _ L C)|exact (ld_slr _ _ M C')].
  - intros C r R. pose proof C as C'. rewrite <- D in C'. apply (triple_loaded inst "oldest"); [intros x X; apply K4; cbn; auto|exact (ld_oldest _ _ L C)|exact (ld_oldest _ _ M C')].
  - intros C r R. pose proof C as C'. rewrite <- D in C'. apply (triple_loaded inst "older"); [intros x X; apply K4; cbn; auto|exact (ld_older _ _ L C)|exact (ld_older _ _ M C')].
  - intros C r R. pose proof C as C'. rewrite <- D in C'. apply (triple_loaded inst "young"); [intros x X; apply K4; cbn; auto|exact (ld_young _ _ L C)|exact (ld_young _ _ M C')].
  - intros r R. apply (regional_fun inst "MAC_scaling_factor"); [apply K2; [cbn; auto|exact R]|exact (ld_scaling _ _ L)|exact (ld_scaling _ _ M)].
  - intros r R. apply (regional_fun inst "init_capitalstock_factor"); [apply K2; [cbn; auto|exact R]|exact (ld_capital _ _ L)|exact (ld_capital _ _ M)].
  - intros C. pose proof C as C'. rewrite <- W in C'. exact (scalar_fun _ _ _ _ (ld_aversion _ _ L C) (ld_aversion _ _ M C')).
Qed.

Lemma C66_instance_determines_pf : forall inst p q, loads inst p -> loads inst q -> all_known inst (tf p) (regions p) ->
  generated p = generated q /\ param_divisors p = param_divisors q /\ forall v, (feasible p v <-> feasible q v) /\ (optimal p v <-> optimal q v).
Proof. intros inst p q L M K. apply C66_same_constraints_pf, (numbers_loaded inst); assumption. Qed.

(** *** The shipped files *)
Definition numeric (v : result pyval) : bool := is_q v (fun _ => true).
Definition damage_numeric (label r : string) : bool :=
  match shipped coacch_map (label ++ "_form") r with
  | Ok (VStr s) => numeric (shipped coacch_map (label ++ "_b1") r) && forallb (fun l => numeric (shipped coacch_map (label ++ "_a (q=" ++ l ++ ")") r)) labels &&
      (str_contains "Linear" s || numeric (shipped coacch_map (label ++ "_b2") r) && (str_contains "Quadratic" s || numeric (shipped coacch_map (label ++ "_b3") r)))
  | _ => false end.
Definition region_numeric (r : string) : bool :=
  numeric (shipped (Direct economics) "init_capital_factor" r) && forallb (fun k => numeric (shipped (Direct mac) k r)) kappas &&
  forallb (fun k => numeric (shipped (Direct mortality) k r)) mortality_columns &&
  damage_numeric "NoSLR" r && damage_numeric "SLR-Ad" r && damage_numeric "SLR-NoAd" r &&
  forallb (fun b => forallb (fun ad => forallb (fun l => numeric (shipped coacch_map ("combined_" ++ b ++ "_" ++ ad ++ "-q" ++ l) r)) labels) ["Ad"; "NoAd"]) ["b1"; "b2"].
Lemma numbers_checked : forallb region_numeric image_regions = true.
Proof. vm_compute. reflexivity. Qed.
Local Opaque coacch image_pairs economics mac mortality container_get outer_merge kappas labels.
(** No values of their own in the "regions" section of the configuration. *)
Definition no_overrides (d : pydict) : Prop :=
  forall k x cat col, In (k, x) d -> In cat ["economics"; "MAC"; "COACCH"; "mortality"] -> lookup x [cat; col] = None.
Definition shipped_table (cat : string) : container :=
  if String.eqb cat "economics" then Direct economics else if String.eqb cat "MAC" then Direct mac else
  if String.eqb cat "mortality" then Direct mortality else coacch_map.
Lemma file_mac mo col r : file_value mo bundled_categories "MAC" col r = container_get mo (Direct mac) col r.
Proof. reflexivity. Qed.
Lemma file_mortality mo col r : file_value mo bundled_categories "mortality" col r = container_get mo (Direct mortality) col r.
Proof. reflexivity. Qed.
Lemma dget_in (d : pydict) k x : dget d k = Some x -> In (k, x) d.
Proof.
  induction d as [|[k' y] d IH]; intros X; [discriminate|]. cbn [dget] in X. destruct (key_eqb k' k) eqn:E.
  - injection X as ->. apply key_eqb_eq in E. subst k'. left. reflexivity.
  - right. auto.
Qed.
Lemma shipped_any o mo uf sp c user inst d cat col r : construct o bundled mo uf sp c user = Ok inst -> distinct_keys user -> default_inputs user ->
  (forall l, Permutation l (mo l)) -> lookup (i_params inst) ["regions"] = Some (VDict d) -> no_overrides d ->
  In cat ["economics"; "MAC"; "COACCH"; "mortality"] -> In r image_regions ->
  getregional mo (i_store inst) cat col r = shipped (shipped_table cat) col r.
Proof.
  intros H DU DI PM RL NO CC R.
  destruct (construct_inv _ _ _ _ _ _ _ _ H) as (raw & rs & ch & decls & start & dt & H1 & H2 & _ & _ & _ & _ & H7 & _).
  assert (A : accepted o user raw (i_params inst) (i_tree inst)) by (split; [exact DU|auto]).
  rewrite (bundled_store _ _ _ _ _ A DI) in H7. apply Ok_inj in H7. rewrite H7.
  assert (OV : override (i_params inst) r cat col = None).
  { unfold override. change ["regions"; r; cat; col] with (["regions"] ++ [r; cat; col]). rewrite lookup_app, RL. cbn [lookup].
    destruct (dget d (KStr r)) as [x|] eqn:X; [|reflexivity]. apply (NO _ _ cat col (dget_in _ _ _ X) CC). }
  rewrite C15_otherwise_file_value_pf by exact OV. cbn [st_categories]. unfold shipped. cbn [In] in CC. destruct CC as [<-|[<-|[<-|[<-|[]]]]].
  - rewrite file_economics. apply direct_any.
  - rewrite file_mac. apply direct_any.
  - rewrite file_coacch. change (shipped_table "COACCH") with (Mapped coacch image_pairs).
    pose proof regions_checked as K. rewrite forallb_forall in K. specialize (K _ R). unfold region_ok in K.
    apply Bool.andb_true_iff in K as [K _]. apply Bool.andb_true_iff in K as [K _]. apply Bool.andb_true_iff in K as [K _]. apply Bool.andb_true_iff in K as [K _].
    unfold one_row in K. destruct (filter (fun x => py_eqb (fst x) (VStr r)) (outer_merge (fun l => l) coacch image_pairs)) as [|row [|]] eqn:F; try discriminate K.
    exact (mapped_single mo coacch image_pairs col r row PM F).
  - rewrite file_mortality. apply direct_any.
Qed.

Lemma numeric_ok v : numeric v = true -> exists x q, v = Ok x /\ number x = Ok q.
Proof. intros H. apply is_q_ok in H as (x & q & E & N & _). exists x, (Q2R q). split; [exact E|apply number_number, N]. Qed.
Lemma number_fields r : In r image_regions ->
  numeric (shipped (Direct economics) "init_capital_factor" r) = true /\
  (forall k, In k kappas -> numeric (shipped (Direct mac) k r) = true) /\
  (forall k, In k mortality_columns -> numeric (shipped (Direct mortality) k r) = true) /\
  damage_numeric "NoSLR" r = true /\ (forall v, damage_numeric ("SLR-" ++ adapt_label v) r = true) /\
  forall b v l, In b ["b1"; "b2"] -> In l labels -> numeric (shipped coacch_map ("combined_" ++ b ++ "_" ++ adapt_label v ++ "-q" ++ l) r) = true.
Proof.
  intros R. pose proof numbers_checked as K. rewrite forallb_forall in K. specialize (K _ R). unfold region_numeric in K.
  apply Bool.andb_true_iff in K as [K K7]. apply Bool.andb_true_iff in K as [K K6]. apply Bool.andb_true_iff in K as [K K5]. apply Bool.andb_true_iff in K as [K K4].
  apply Bool.andb_true_iff in K as [K K3]. apply Bool.andb_true_iff in K as [K1 K2].
  split; [exact K1|]. split; [rewrite forallb_forall in K2; exact K2|]. split; [rewrite forallb_forall in K3; exact K3|]. split; [exact K4|].
  split; [intros v; unfold adapt_label; destruct (py_truth v); [exact K5|exact K6]|].
  intros b v l B L. rewrite forallb_forall in K7. specialize (K7 _ B). rewrite forallb_forall in K7.
  specialize (K7 (adapt_label v) (adapt_in v)). rewrite forallb_forall in K7. exact (K7 _ L).
Qed.
Lemma damage_fields label r l : damage_numeric label r = true -> In l labels -> exists s, shipped coacch_map (label ++ "_form") r = Ok (VStr s) /\
  numeric (shipped coacch_map (label ++ "_a (q=" ++ l ++ ")") r) = true /\ numeric (shipped coacch_map (label ++ "_b1") r) = true /\
  (str_contains "Linear" s = false -> numeric (shipped coacch_map (label ++ "_b2") r) = true /\
     (str_contains "Quadratic" s = false -> numeric (shipped coacch_map (label ++ "_b3") r) = true)).
Proof.
  unfold damage_numeric. intros K L. destruct (shipped coacch_map (label ++ "_form") r) as [[| | | |s| |]|]; try discriminate K. exists s. split; [reflexivity|].
  apply Bool.andb_true_iff in K as [K K3]. apply Bool.andb_true_iff in K as [K1 K2]. rewrite forallb_forall in K2. split; [exact (K2 _ L)|]. split; [exact K1|].
  intros N. rewrite N in K3. cbn [orb] in K3. apply Bool.andb_true_iff in K3 as [K3 K4]. split; [exact K3|]. intros N2. rewrite N2 in K4. exact K4.
Qed.

Lemma bundled_known o mo uf sp c user inst d p : construct o bundled mo uf sp c user = Ok inst -> distinct_keys user -> default_inputs user ->
  (forall l, Permutation l (mo l)) -> prints_quantiles o -> (forall name, ~ customised (i_params inst) name) ->
  lookup (i_params inst) ["regions"] = Some (VDict d) -> no_overrides d -> (forall k x, In (k, x) d -> exists r, k = KStr r /\ In r image_regions) ->
  loads inst p -> all_known inst (tf p) (regions p).
Proof.
  intros H DU DI PM PQ NC RL NO RK L.
  destruct (acc _ _ _ _ _ _ _ _ DU H) as (raw & A).
  assert (PC : plain_columns o (i_params inst)) by (apply (bundled_columns _ _ _ _ _ mo [] A PQ PM); intros r []).
  destruct (module_names _ _ _ _ _ _ _ _ _ H L) as (ch & decls & CH & MP & COM & CO & _).
  destruct (C10_grid_values_pf _ _ _ _ _ _ _ _ H (fun name _ => NC name)) as (start' & d' & LS' & LD' & A1 & A2 & _ & A4 & A5).
  pose proof (C60_configuration_reaches_model_pf _ _ _ _ _ _ _ _ _ DU H NC L) as CF.
  assert (RI : forall r, In r (regions p) -> In r image_regions).
  { destruct (cf_regions _ _ _ CF) as (d2 & RL' & M & _). rewrite RL in RL'. injection RL' as <-. intros r R.
    assert (I : In (KStr r) (map fst d)) by (rewrite M; apply in_map, R). apply in_map_iff in I as ([k x] & E & I). cbn in E. subst k.
    destruct (RK _ _ I) as (r' & E & R'). injection E as <-. exact R'. }
  assert (RG : regions p = i_regions inst) by (pose proof (ld_regions _ _ L) as V; unfold data_of in V; rewrite A5 in V; injection V as V; auto).
  assert (TF : forall t, (t <= tf p)%nat -> In t (model_steps (a_start (i_args inst)) (a_end (i_args inst)) (a_dt (i_args inst)))).
  { intros t T. pose proof (ld_tf _ _ L) as V. unfold data_of in V. rewrite A4 in V. injection V as V. unfold model_steps. apply in_seq. lia. }
  assert (SH : forall cat col r, In cat ["economics"; "MAC"; "COACCH"; "mortality"] -> In r (regions p) -> getregional mo (i_store inst) cat col r = shipped (shipped_table cat) col r).
  { intros cat col r CC R. eapply shipped_any; eauto. }
  assert (CL : forall name cat col, reads o (i_params inst) name cat col -> In cat ["economics"; "MAC"; "COACCH"; "mortality"]) by (intros name cat col []; cbn; auto).
  assert (REG : forall name cat col r, reads o (i_params inst) name cat col -> In name (map fst decls) -> (combined (i_params inst) -> ~ In name combined_names) -> In r (regions p) ->
     exists l v, data_of inst name = Ok (ByRegion l) /\ In (r, v) l /\ shipped (shipped_table cat) col r = Ok v).
  { intros name cat col r RD ID NB R.
    destruct (C10_regional_values_pf _ _ _ _ _ _ _ _ H PC ch decls name cat col CH MP ID RD (NC name) NB) as (l & B & ML & K).
    pose proof R as R2. rewrite RG, <- ML in R2. apply in_fst in R2 as (v & I). exists l, v. split; [exact B|]. split; [exact I|].
    rewrite <- (SH cat col r (CL _ _ _ RD) R). exact (K _ _ I). }
  assert (KN : forall name cat col r, reads o (i_params inst) name cat col -> In name (map fst decls) -> (combined (i_params inst) -> ~ In name combined_names) -> In r (regions p) ->
     numeric (shipped (shipped_table cat) col r) = true -> known inst name r).
  { intros name cat col r RD ID NB R N. destruct (REG name cat col r RD ID NB R) as (l & v & B & I & S). apply numeric_ok in N as (x & q & E & N).
    rewrite S in E. apply Ok_inj in E. subst x. exists l, v, q. auto. }
  assert (DECL : forall name, In name (map fst (base_params ++ emissions_params ++ mitigation_params ++ effort_params ++ cobbdouglas_params ++ elasmu_params ++ objective_params)) -> In name (map fst decls)).
  { intros name I. apply in_map_iff in I as (x & <- & I). apply in_map. apply COM, I. }
  assert (DECLC : module_is inst "damage module" "COACCH" -> forall name, In name (map fst coacch_params) -> In name (map fst decls)).
  { intros E name I. apply in_map_iff in I as (x & <- & I). apply in_map. apply CO; [|exact I].
    pose proof (module_fun _ _ _ _ (ld_damage_module _ _ L) E) as X. destruct (dmg_module p); [reflexivity|discriminate X]. }
  destruct (quantile_value _ _ _ _ _ A PQ) as (q & Q1 & Q2). destruct (kappa_value _ _ _ _ _ A) as (k & K1 & K2).
  destruct (lookup_scalar _ _ _ _ _ ["economics"; "damages"; "coacch_slr_withadapt"] A ltac:(vm_compute; reflexivity)) as (ad & AD & _).
  constructor.
  - intros name t r NM T R. assert (NV : exists var, In (name, var) [("population", "population"); ("baseline_GDP", "GDP"); ("baseline_emissions", "emissions")]).
    { cbn [In] in NM. destruct NM as [<-|[<-|[<-|[]]]]; eexists; cbn [In]; eauto. }
    destruct NV as (var & NV). destruct (C10_data_values_pf _ _ _ _ _ _ _ _ H name var NV (NC name)) as (l & B & K & _).
    rewrite RG in R. destruct (K t r (TF t T) R) as (x & X). exists l, x. split; [exact B|exact X].
  - intros name r NM R. destruct (number_fields r (RI r R)) as (N1 & N2 & _). cbn [In] in NM. destruct NM as [<-|[<-|[]]].
    + refine (KN _ _ _ r (reads_mac _ _ _ K1) _ _ R (N2 k K2)); [apply DECL; declared|intros _; apply not_named; reflexivity].
    + refine (KN _ _ _ r (reads_capital _ _) _ _ R N1); [apply DECL; declared|intros _; apply not_named; reflexivity].
  - intros M prefix r PF R. destruct (number_fields r (RI r R)) as (_ & _ & _ & N4 & N5 & N6). specialize (DECLC M).
    destruct (combined_dec (i_params inst)) as [CB|NB].
    + destruct (C10_combined_damages_pf _ _ _ _ _ _ _ _ DU H CB) as (B & F1 & F2 & F3 & F4 & F5). cbv zeta in *.
      assert (EV : forall name v x, assoc name (i_data inst) = Ok (ByRegion (map (fun r => (r, v)) (i_regions inst))) -> number v = Ok x -> known inst name r).
      { intros name v x AS N. exists (map (fun r => (r, v)) (i_regions inst)), v, x. split; [exact AS|]. split; [|exact N]. apply in_map_iff. exists r. rewrite <- RG. auto. }
      assert (ET : forall name s, assoc name (i_data inst) = Ok (ByRegion (map (fun r => (r, VStr s)) (i_regions inst))) -> known_text inst name r s).
      { intros name s AS. exists (map (fun r => (r, VStr s)) (i_regions inst)). split; [exact AS|]. apply in_map_iff. exists r. rewrite <- RG. auto. }
      cbn [In] in PF. destruct PF as [<-|[<-|[]]].
      * assert (CU : forall x, In x ["b1"; "b2"] -> known inst ("damage_noslr_" ++ x) r).
        { intros x X. destruct (B x X) as (l & q' & a' & Q' & AD' & AS & ML & K). assert (q' = q) by congruence. assert (a' = ad) by congruence. subst q' a'.
          pose proof R as R2. rewrite RG, <- ML in R2. apply in_fst in R2 as (v & I). pose proof (K _ _ I) as GV. rewrite (SH "COACCH" _ r ltac:(cbn; auto) R) in GV.
          destruct (numeric_ok _ (N6 x ad _ X Q2)) as (w & z & E & N). change (shipped_table "COACCH") with coacch_map in GV. rewrite GV in E. apply Ok_inj in E. subst w.
          exists l, v, z. auto. }
        exists "Robust-Quadratic". split; [apply ET, F1|]. split; [exact (EV _ _ _ F3 eq_refl)|]. split; [apply (CU "b1"); cbn; auto|].
        intros _. split; [apply (CU "b2"); cbn; auto|]. intros X. discriminate X.
      * exists "Robust-Linear". split; [apply ET, F4|]. split; [exact (EV _ _ _ (F5 "a" ltac:(cbn; auto)) eq_refl)|].
        split; [exact (EV _ _ _ (F5 "b1" ltac:(cbn; auto)) eq_refl)|]. intros X. discriminate X.
    + assert (NBN : forall name, combined (i_params inst) -> ~ In name combined_names) by (intros name X; contradiction).
      cbn [In] in PF. destruct PF as [<-|[<-|[]]].
      * destruct (damage_fields "NoSLR" r _ N4 Q2) as (s & S1 & S2 & S3 & S4). exists s.
        assert (KB : forall x, In x ["b1"; "b2"; "b3"] -> numeric (shipped coacch_map ("NoSLR_" ++ x) r) = true -> known inst ("damage_noslr_" ++ x) r).
        { intros x X N. refine (KN _ "COACCH" _ r (reads_noslr _ _ x _) _ (NBN _) R N); [cbn [In] in X |- *; tauto|].
          cbn [In] in X. destruct X as [<-|[<-|[<-|[]]]]; apply DECLC; declared. }
        split; [|split; [|split]].
        { destruct (REG "damage_noslr_form" _ _ r (reads_noslr _ _ "form" ltac:(cbn; auto)) ltac:(apply DECLC; declared) (NBN _) R) as (l & v & B1 & I & S).
          change (shipped_table "COACCH") with coacch_map in S. change ("NoSLR_" ++ "form")%string with ("NoSLR" ++ "_form")%string in S. rewrite S1 in S. apply Ok_inj in S. subst v. exists l. auto. }
        { refine (KN _ "COACCH" _ r (reads_noslr_a _ _ q Q1) _ (NBN _) R S2). apply DECLC; declared. }
        { apply (KB "b1"); [cbn; auto|exact S3]. }
        intros N. destruct (S4 N) as [S5 S6]. split; [apply (KB "b2"); [cbn; auto|exact S5]|]. intros N2. apply (KB "b3"); [cbn; auto|exact (S6 N2)].
      * destruct (damage_fields ("SLR-" ++ adapt_label ad) r _ (N5 ad) Q2) as (s & S1 & S2 & S3 & S4). exists s.
        assert (EQ : forall x, (("SLR-" ++ adapt_label ad) ++ x = "SLR-" ++ adapt_label ad ++ x)%string) by (intros; apply append_assoc').
        rewrite EQ in S1, S2, S3, S4.
        assert (KB : forall x, In x ["b1"; "b2"; "b3"] -> numeric (shipped coacch_map ("SLR-" ++ adapt_label ad ++ "_" ++ x) r) = true -> known inst ("damage_slr_" ++ x) r).
        { intros x X N. refine (KN _ "COACCH" _ r (reads_slr _ _ x ad _ AD) _ (NBN _) R N); [cbn [In] in X |- *; tauto|].
          cbn [In] in X. destruct X as [<-|[<-|[<-|[]]]]; apply DECLC; declared. }
        split; [|split; [|split]].
        { destruct (REG "damage_slr_form" _ _ r (reads_slr _ _ "form" ad ltac:(cbn; auto) AD) ltac:(apply DECLC; declared) (NBN _) R) as (l & v & B1 & I & S).
          change (shipped_table "COACCH") with coacch_map in S. change ("_" ++ "form")%string with "_form" in S. rewrite S1 in S. apply Ok_inj in S. subst v. exists l. auto. }
        { refine (KN _ "COACCH" _ r (reads_slr_a _ _ ad q AD Q1) _ (NBN _) R S2). apply DECLC; declared. }
        { apply (KB "b1"); [cbn; auto|exact S3]. }
        intros N. rewrite EQ in S4. destruct (S4 N) as [S5 S6]. split; [apply (KB "b2"); [cbn; auto|exact S5]|]. intros N2. apply (KB "b3"); [cbn; auto|exact (S6 N2)].
  - intros M age x r AG X R. destruct (number_fields r (RI r R)) as (_ & _ & N3 & _).
    refine (KN _ "mortality" _ r (reads_mortality _ _ age x AG X) _ _ R (N3 _ _)).
    + specialize (DECLC M). clear - DECLC AG X. cbn [In] in AG, X. destruct AG as [<-|[<-|[<-|[]]]]; destruct X as [<-|[<-|[<-|[]]]]; apply DECLC; declared.
    + intros _. clear - AG X. cbn [In] in AG, X. destruct AG as [<-|[<-|[<-|[]]]]; destruct X as [<-|[<-|[<-|[]]]]; apply not_named; reflexivity.
    + unfold mortality_columns. apply in_flat_map. exists age. split; [exact AG|]. apply in_map_iff. exists x. auto.
Qed.

(** With the shipped files every number that the model uses is there, whatever was constructed before. *)
Lemma C66_shipped_known_pf : forall o mo uf sp c user inst d p, distinct_keys user -> default_inputs user -> (forall l, Permutation l (mo l)) -> prints_quantiles o ->
  construct o bundled mo uf sp c user = Ok inst -> (forall name, ~ customised (i_params inst) name) ->
  lookup (i_params inst) ["regions"] = Some (VDict d) -> no_overrides d -> (forall k x, In (k, x) d -> exists r, k = KStr r /\ In r image_regions) ->
  loads inst p -> all_known inst (tf p) (regions p).
Proof. intros o mo uf sp c user inst d p DU DI PM PQ C NC RL NO RK L. exact (bundled_known _ _ _ _ _ _ _ _ _ C DU DI PM PQ NC RL NO RK L). Qed.

(** Two objects made from the same configuration and the shipped files, whatever was constructed before in either session: the same
    constraints under the same names, the same feasible and the same optimal plans. *)
Lemma C66_reproducible_pf : forall o mo uf sp h h' user inst inst' d p q,
  distinct_keys user -> default_inputs user -> (forall l, Permutation l (mo l)) -> prints_quantiles o ->
  (forall disk a, In (disk, a) (h ++ h') -> disk = bundled) ->
  construct o bundled mo uf sp (after uf sp h empty_caches) user = Ok inst ->
  construct o bundled mo uf sp (after uf sp h' empty_caches) user = Ok inst' ->
  (forall name, ~ customised (i_params inst) name) -> lookup (i_params inst) ["regions"] = Some (VDict d) -> no_overrides d ->
  (forall k x, In (k, x) d -> exists r, k = KStr r /\ In r image_regions) ->
  loads inst p -> loads inst' q ->
  generated p = generated q /\ forall v, (feasible p v <-> feasible q v) /\ (optimal p v <-> optimal q v).
Proof.
  intros o mo uf sp h h' user inst inst' d p q DU DI PM PQ HH C C' NC RL NO RK L L'.
  pose proof (bundled_known _ _ _ _ _ _ _ _ _ C DU DI PM PQ NC RL NO RK L) as K.
  assert (PE : i_params inst = i_params inst').
  { destruct (construct_inv _ _ _ _ _ _ _ _ C) as (raw & rs & ch & decls & st & dt & H1 & H2 & _). destruct (construct_inv _ _ _ _ _ _ _ _ C') as (raw' & rs' & ch' & decls' & st' & dt' & K1 & K2 & _).
    rewrite H1 in K1. injection K1 as <- _. rewrite H2 in K2. injection K2 as <-. reflexivity. }
  assert (HHl : forall d a, In (d, a) h' -> d = bundled) by (intros; eapply HH; apply in_or_app; eauto).
  assert (RE : i_regions inst = i_regions inst').
  { destruct (construct_inv _ _ _ _ _ _ _ _ C) as (raw & rs & ch & decls & st & dt & _ & _ & H3 & (l & I & R) & _).
    destruct (construct_inv _ _ _ _ _ _ _ _ C') as (raw' & rs' & ch' & decls' & st' & dt' & _ & _ & K3 & (l' & I' & R') & _).
    rewrite <- PE, H3 in K3. injection K3 as <-. rewrite I in I'. apply Ok_inj in I'. subst l'. rewrite R, R'. reflexivity. }
  assert (M : loads inst q).
  { pose proof (construct_regions _ _ _ _ _ _ _ _ _ DU HHl C' L') as RQ.
    assert (SB : same_but_scope (i_params inst') (i_params inst)) by (rewrite PE; apply same_self).
    assert (EE : lookup (i_params inst) ["time"; "end"] = lookup (i_params inst') ["time"; "end"]) by (rewrite PE; reflexivity).
    assert (HHr : forall d a, In (d, a) (h' ++ h) -> d = bundled) by (intros d' a I; apply (HH d' a); apply in_or_app; apply in_app_or in I as [I|I]; auto).
    pose proof (C64_left_out_pf o bundled mo uf sp h' h user user inst' inst q DU DU HHr C' C SB EE L') as M.
    rewrite RE, <- RQ in M. replace (with_regions (regions q) q) with q in M by (destruct q; reflexivity). exact M. }
  destruct (C66_instance_determines_pf inst p q L M K) as (G & _ & F). auto.
Qed.

(** C63 and C64 about every pair of models that the two instances stand for. *)
Lemma C63_cut_off_any_pf : forall o disk mo uf sp h h' user user' inst inst' p p' start stop stop',
  distinct_keys user -> distinct_keys user' -> (forall d b, In (d, b) (h ++ h') -> d = disk) ->
  construct o disk mo uf sp (after uf sp h empty_caches) user = Ok inst ->
  construct o disk mo uf sp (after uf sp h' empty_caches) user' = Ok inst' ->
  same_but_scope (i_params inst) (i_params inst') -> Permutation (i_regions inst) (i_regions inst') ->
  number_at (i_params inst) ["time"; "start"] start -> number_at (i_params inst) ["time"; "end"] stop -> number_at (i_params inst') ["time"; "end"] stop' ->
  (start <= stop')%Q -> (stop' <= stop)%Q -> loads inst p -> loads inst' p' -> all_known inst' (tf p') (regions p') ->
  (tf p' <= tf p)%nat /\ (forall v, feasible p v -> feasible p' v) /\
    forall v w, feasible p w -> optimal p' v -> objective p = utility -> gval w g_NPV (tf p') <= gval v g_NPV (tf p').
Proof.
  intros o disk mo uf sp h h' user user' inst inst' p p' start stop stop' DU DU' HH C C' SB PM NS NE NE' B1 B2 L L' K.
  destruct (C63_cut_off_pf o disk mo uf sp h h' user user' inst inst' p start stop stop' DU DU' HH C C' SB PM NS NE NE' B1 B2 L) as (q & LQ & T & F & O).
  assert (TQ : tf p' = tf q).
  { pose proof (construct_tf _ _ _ _ _ _ _ _ _ C' L') as X. pose proof (construct_tf _ _ _ _ _ _ _ _ _ C' LQ) as Y. rewrite X in Y. lia. }
  destruct (C66_instance_determines_pf inst' p' q L' LQ K) as (_ & _ & E). rewrite TQ. split; [exact T|]. split.
  - intros v X. apply (proj1 (E v)), F, X.
  - intros v w X OV OB. apply O; auto. apply (proj2 (E v)), OV.
Qed.

Lemma C64_listing_order_any_pf : forall o disk mo uf sp h h' user user' inst inst' p p',
  distinct_keys user -> distinct_keys user' -> (forall d b, In (d, b) (h ++ h') -> d = disk) ->
  construct o disk mo uf sp (after uf sp h empty_caches) user = Ok inst ->
  construct o disk mo uf sp (after uf sp h' empty_caches) user' = Ok inst' ->
  same_but_scope (i_params inst) (i_params inst') -> lookup (i_params inst') ["time"; "end"] = lookup (i_params inst) ["time"; "end"] ->
  Permutation (i_regions inst) (i_regions inst') -> loads inst p -> loads inst' p' -> all_known inst' (tf p') (regions p') ->
  tf p' = tf p /\ forall v, (feasible p' v <-> feasible p v) /\ (optimal p' v <-> optimal p v).
Proof.
  intros o disk mo uf sp h h' user user' inst inst' p p' DU DU' HH C C' SB EE PM L L' K.
  destruct (C64_listing_order_pf o disk mo uf sp h h' user user' inst inst' p DU DU' HH C C' SB EE PM L) as (q & LQ & T & F).
  assert (TQ : tf p' = tf q).
  { pose proof (construct_tf _ _ _ _ _ _ _ _ _ C' L') as X. pose proof (construct_tf _ _ _ _ _ _ _ _ _ C' LQ) as Y. rewrite X in Y. lia. }
  destruct (C66_instance_determines_pf inst' p' q L' LQ K) as (_ & _ & E). split; [congruence|].
  intros v. destruct (F v) as [F1 F2]. destruct (E v) as [E1 E2]. rewrite E1, E2. auto.
Qed.
