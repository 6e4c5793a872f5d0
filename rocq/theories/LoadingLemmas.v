(** C60: the configuration reaches the model. *)
From Verif Require Import PyBase NestedDict Parsers Config ConfigDefault NestedDictFacts ConfigFacts ConfigFacts2 ConfigSpec RefFacts ConfigBridge ConfigLemmas
  TimeGrid DataStore RegionalParams Instantiate InstFacts TimeGridLemmas DataStoreLemmas RegionalParamsLemmas InstantiateLemmas ConstructFacts Loading.
From Coq Require Import Reals QArith Qreals Lra Lia.
Import ListNotations.
Open Scope string_scope.
Open Scope list_scope.
Open Scope R_scope.

(** *** Specification *)
(** An entry of the (accepted) configuration that is a number, a number or False, True or False, a quantity in a unit. *)
Definition number_in (params : pyval) (path : list string) (x : R) : Prop := exists v, lookup params path = Some v /\ number v = Ok x.
Definition limit_in (params : pyval) (path : list string) (x : option R) : Prop :=
  match x with Some y => number_in params path y | None => lookup params path = Some (VBool false) end.
Definition flag_in (params : pyval) (path : list string) (b : bool) : Prop := lookup params path = Some (VBool b).
Definition text_in (params : pyval) (path : list string) (s : string) : Prop := lookup params path = Some (VStr s).
Definition quantity_in (o : oracles) (params : pyval) (path : list string) (unit : string) (x : R) : Prop :=
  exists v q, lookup params path = Some v /\ v <> VBool false /\ quant o v (VStr unit) true = Ok (Some q) /\ x = Q2R q.
Definition optional_quantity_in (o : oracles) (params : pyval) (path : list string) (unit : string) (x : option R) : Prop :=
  match x with Some y => quantity_in o params path unit y | None => lookup params path = Some (VBool false) end.
(** The numbers of the model are those of the configuration. *)
Record configured (o : oracles) (params : pyval) (p : pars) : Prop := {
  cf_start : number_in params ["time"; "start"] (beginyear p);
  cf_dt : number_in params ["time"; "dt"] (dt p);
  cf_end : exists stop, number_in params ["time"; "end"] stop /\ (beginyear p <= stop -> 0 < dt p -> stop <= year p (tf p) < stop + dt p);
  cf_regions : exists d, lookup params ["regions"] = Some (VDict d) /\ map fst d = map KStr (regions p) /\ NoDup (regions p);
  cf_intensity : flag_in params ["emissions"; "baseline carbon intensity"] (use_carbon_intensity p);
  cf_trapz : flag_in params ["emissions"; "cumulative_emissions_trapz"] (cum_trapz p);
  cf_T0 : quantity_in o params ["temperature"; "initial"] "temperature_unit" (T0 p);
  cf_TCRE : quantity_in o params ["temperature"; "TCRE"] "(temperature_unit)/(emissions_unit)" (TCRE p);
  cf_target : optional_quantity_in o params ["temperature"; "target"] "temperature_unit" (temperature_target p);
  cf_reversible : number_in params ["economics"; "damages"; "percentage reversible"] (perc_reversible p);
  cf_budget : optional_quantity_in o params ["emissions"; "carbonbudget"] "emissions_unit" (budget p);
  cf_inertia_global : limit_in params ["emissions"; "inertia"; "global"] (inertia_global p);
  cf_inertia_regional : limit_in params ["emissions"; "inertia"; "regional"] (inertia_regional p);
  cf_global_min : optional_quantity_in o params ["emissions"; "global min level"] "emissionsrate_unit" (global_min_level p);
  cf_regional_min : optional_quantity_in o params ["emissions"; "regional min level"] "emissionsrate_unit" (regional_min_level p);
  cf_non_increasing : flag_in params ["emissions"; "non increasing emissions after 2100"] (non_increasing_after_2100 p);
  cf_no_pos : flag_in params ["emissions"; "not positive after budget year"] (no_pos_after_budget_year p);
  cf_damage : text_in params ["model"; "damage module"] (damage_name (dmg_module p));
  cf_trade : text_in params ["model"; "emissiontrade module"] (trade_name (trade p));
  cf_transfer : text_in params ["model"; "financialtransfer module"] (transfer_name (transfer p));
  cf_welfare : text_in params ["model"; "welfare module"] (welfare_name (welfare p));
  cf_objective : text_in params ["model"; "objective module"] (objective_name (objective p));
  cf_scale : dmg_module p = COACCH -> number_in params ["economics"; "damages"; "scale factor"] (damage_scale_factor p);
  cf_gamma : quantity_in o params ["economics"; "MAC"; "gamma"] "currency_unit/emissionsrate_unit" (MAC_gamma p);
  cf_beta : number_in params ["economics"; "MAC"; "beta"] (MAC_beta p);
  cf_min_costs : number_in params ["economics"; "MAC"; "rel_mitigation_costs_min_level"] (rel_mitigation_costs_min_level p);
  cf_LBD_rate : number_in params ["economics"; "MAC"; "LBD_rate"] (LBD_rate p);
  cf_LBD_scaling : quantity_in o params ["economics"; "MAC"; "LBD_scaling"] "emissions_unit" (LBD_scaling p);
  cf_LOT : number_in params ["economics"; "MAC"; "LOT_rate"] (LOT_rate p);
  cf_min_payment : trade p = globalcostpool -> limit_in params ["economics"; "emission trade"; "min rel payment level"] (min_rel_payment_level p);
  cf_max_payment : trade p = globalcostpool -> limit_in params ["economics"; "emission trade"; "max rel payment level"] (max_rel_payment_level p);
  cf_regime : text_in params ["effort sharing"; "regime"] (regime_name (effort_regime p));
  cf_percapconv : limit_in params ["effort sharing"; "percapconv_year"] (percapconv_year p);
  cf_alpha : number_in params ["economics"; "GDP"; "alpha"] (alpha p);
  cf_dk : number_in params ["economics"; "GDP"; "depreciation of capital"] (dk p);
  cf_sr : number_in params ["economics"; "GDP"; "savings rate"] (sr p);
  cf_ignore : flag_in params ["economics"; "damages"; "ignore damages"] (ignore_damages p);
  cf_elasmu : number_in params ["economics"; "elasmu"] (elasmu p);
  cf_aversion : welfare p = inequal_aversion_general -> number_in params ["economics"; "inequal_aversion"] (inequal_aversion p);
  cf_PRTP : number_in params ["economics"; "PRTP"] (PRTP p)
}.

(** *** Proofs *)
Lemma module_names o disk mo uf sp c user inst p : construct o disk mo uf sp c user = Ok inst -> loads inst p ->
  exists ch decls, choices_of (i_params inst) = Ok ch /\ model_params ch = Ok decls /\
    (forall d, In d (base_params ++ emissions_params ++ mitigation_params ++ effort_params ++ cobbdouglas_params ++ elasmu_params ++ objective_params) -> In d decls) /\
    (dmg_module p = COACCH -> forall d, In d coacch_params -> In d decls) /\
    (trade p = globalcostpool -> forall d, In d globalcostpool_params -> In d decls) /\
    (welfare p = inequal_aversion_general -> forall d, In d inequal_params -> In d decls).
Proof.
  intros H L. destruct (construct_inv _ _ _ _ _ _ _ _ H) as (raw & rs & ch & decls & start & dt & _ & _ & _ & _ & H5 & H6 & _).
  exists ch, decls. split; [exact H5|]. split; [exact H6|].
  pose proof (ld_damage_module _ _ L) as D. pose proof (ld_trade_module _ _ L) as T. pose proof (ld_transfer_module _ _ L) as F.
  pose proof (ld_welfare_module _ _ L) as W. pose proof (ld_objective_module _ _ L) as OB. unfold module_is in *.
  apply config_lookup in D, T, F, W, OB. unfold choices_of in H5. rewrite D in H5. cbn [bind] in H5. rewrite T in H5. cbn [bind] in H5.
  rewrite F in H5. cbn [bind] in H5. rewrite W in H5. cbn [bind] in H5. rewrite OB in H5. cbn [bind] in H5. apply Ok_inj in H5. subst ch.
  unfold model_params in H6. cbn [c_damage c_trade c_transfer c_welfare c_objective] in H6.
  assert (E : decls = base_params ++ emissions_params ++ slr_params ++ (match dmg_module p with COACCH => coacch_params | nodamage => [] end) ++ mitigation_params ++
     (match trade p with notrade => notrade_params | globalcostpool => globalcostpool_params | emissiontrade => [] end) ++
     (match transfer p with notransfer => notransfer_params | globaldamagepool => [] end) ++ effort_params ++ cobbdouglas_params ++
     (match welfare p with inequal_aversion_general => inequal_params | _ => elasmu_params end) ++ objective_params).
  { destruct (dmg_module p), (trade p), (transfer p), (welfare p), (objective p);
      cbn [chosen damage_name trade_name transfer_name welfare_name objective_name find fst snd String.eqb Ascii.eqb Bool.eqb bind] in H6; apply Ok_inj in H6; exact H6. }
  clear H6. subst decls. split; [|split; [|split]].
  - intros d I. rewrite !in_app_iff in *. assert (In d elasmu_params -> In d (match welfare p with inequal_aversion_general => inequal_params | _ => elasmu_params end)).
    { destruct (welfare p); auto. unfold elasmu_params, inequal_params. cbn. tauto. } tauto.
  - intros E d I. rewrite !in_app_iff. rewrite E. tauto.
  - intros E d I. rewrite !in_app_iff. rewrite E. tauto.
  - intros E d I. rewrite !in_app_iff. rewrite E. tauto.
Qed.

Lemma param_at_lookup t p node : param_at t p node -> distinct_keys t -> lookup t p = Some node.
Proof.
  induction 1 as [d k node I _|d k sec p node I _ A IH]; intros D; cbn [lookup].
  - destruct D as [D _]. rewrite (In_dget _ _ _ D I). reflexivity.
  - assert (S : distinct_keys sec).
    { destruct D as [_ D]. clear - I D. induction d as [|[k' x] d IH]; [destruct I|]. destruct D as [D1 D2]. destruct I as [E|I]; [injection E as _ ->; exact D1|auto]. }
    destruct D as [D _]. rewrite (In_dget _ _ _ D I). apply IH, S.
Qed.
Lemma param_at_fun p a b : param_at config_default p a -> param_at config_default p b -> a = b.
Proof.
  intros A B. pose proof (param_at_lookup _ _ _ A default_distinct) as EA. pose proof (param_at_lookup _ _ _ B default_distinct) as EB. congruence.
Qed.
Lemma lookup_distinct path : forall v d, distinct_keys v -> lookup v path = Some (VDict d) -> NoDup (map fst d).
Proof.
  induction path as [|k path IH]; intros v d D L; cbn [lookup] in L.
  - injection L as ->. exact (proj1 D).
  - destruct v as [| | | | | |d0]; try discriminate. destruct (dget d0 (KStr k)) as [x|] eqn:X; [|discriminate]. apply (IH x d); [|exact L].
    destruct D as [_ D]. clear - X D. induction d0 as [|[k' y] d0 IH]; [discriminate|]. destruct D as [D1 D2]. cbn [dget] in X. destruct (key_eqb k' (KStr k)); [injection X as <-; exact D1|auto].
Qed.
Lemma regions_distinct o user raw params tree d : accepted o user raw params tree -> lookup params ["regions"] = Some (VDict d) -> NoDup (map fst d).
Proof.
  intros A L. destruct (template_node ["regions"]) as [n|] eqn:T; [|vm_compute in T; discriminate T].
  destruct (accepted_param _ _ _ _ _ _ _ A (template_node_ok _ _ T)) as (pr & v & C & _ & LR & H).
  assert (exists d0, v = VDict d0) as [d0 ->].
  { eapply plain_dict_parse; [exact C| | |exact H]; vm_compute in T; injection T as <-; reflexivity. }
  destruct (final_dict _ _ _ _ _ _ _ A LR) as (d' & L' & E). rewrite L in L'. injection L' as <-. rewrite E.
  apply (lookup_distinct _ _ _ (accepted_distinct _ _ _ _ _ A) LR).
Qed.
Section Scalars.
  Variables (o : oracles) (disk : string -> result table) (mo : list (pyval * list pyval) -> list (pyval * list pyval))
    (uf : string -> string -> result R) (sp : list R -> list R -> result (R -> R)).
  Variables (c : caches) (user : pyval) (inst : instance) (decls : list (string * doc)) (ch : choices).
  Hypothesis DU : distinct_keys user.
  Hypothesis H : construct o disk mo uf sp c user = Ok inst.
  Hypothesis NC : forall name, ~ customised (i_params inst) name.
  Hypothesis CH : choices_of (i_params inst) = Ok ch.
  Hypothesis MP : model_params ch = Ok decls.

  (** one documented scalar parameter *)
  Lemma documented name rest path node v : In (name, Text ("::" ++ rest)%string) decls -> str_split rest "." = path -> template_node path = Some node ->
    assoc name (i_data inst) = Ok (Scalar v) -> exists w, lookup (i_params inst) path = Some w /\ handed_over o node w v.
  Proof.
    intros I P T A. destruct (C10_scalar_values_pf _ _ _ _ _ _ _ _ DU H _ _ _ _ CH MP I (NC name)) as (node' & w & v' & N & L & HO & A').
    rewrite P in N, L. rewrite A in A'. injection A' as <-. exists w. split; [exact L|].
    pose proof (template_node_ok _ _ T) as N'. assert (node' = node) as <- by (eapply param_at_fun; eassumption). exact HO.
  Qed.
  Definition plain_at (path : list string) : bool := match template_node path with Some n => negb (quantity_node n) | None => false end.
  Definition unit_at (path : list string) : option string :=
    match template_node path with Some n => if quantity_node n then match entry n "unit" with Some (VStr u) => Some u | _ => None end else None | None => None end.
  Lemma plain_value name rest path v : In (name, Text ("::" ++ rest)%string) decls -> str_split rest "." = path -> plain_at path = true ->
    assoc name (i_data inst) = Ok (Scalar v) -> lookup (i_params inst) path = Some v.
  Proof.
    intros I P K A. unfold plain_at in K. destruct (template_node path) as [n|] eqn:T; [|discriminate].
    destruct (documented _ _ _ _ _ I P T A) as (w & L & HO). apply Bool.negb_true_iff in K.
    assert (Q : ~ has_type n "quantity") by (unfold quantity_node in K; unfold has_type; destruct (entry n "type") as [[]|]; try congruence; intros E; injection E as ->; discriminate).
    destruct HO as [(Q1 & _)|[(Q1 & _)|[_ ->]]]; [contradiction|contradiction|exact L].
  Qed.
  Lemma from_number name rest path x : scalar_is inst name x -> In (name, Text ("::" ++ rest)%string) decls -> str_split rest "." = path -> plain_at path = true ->
    number_in (i_params inst) path x.
  Proof. intros (v & A & N) I P K. exists v. split; [|exact N]. apply (plain_value _ _ _ _ I P K A). Qed.
  Lemma from_limit name rest path x : limit_is inst name x -> In (name, Text ("::" ++ rest)%string) decls -> str_split rest "." = path -> plain_at path = true ->
    limit_in (i_params inst) path x.
  Proof.
    intros (v & A & N) I P K. pose proof (plain_value _ _ _ _ I P K A) as L. unfold limit_in. destruct x as [y|]; [exists v; auto|subst v; exact L].
  Qed.
  Lemma from_flag name rest path b : flag_is inst name b -> In (name, Text ("::" ++ rest)%string) decls -> str_split rest "." = path -> plain_at path = true ->
    flag_in (i_params inst) path b.
  Proof. intros A I P K. apply (plain_value _ _ _ _ I P K A). Qed.
  Lemma from_text name rest path s : text_is inst name s -> In (name, Text ("::" ++ rest)%string) decls -> str_split rest "." = path -> plain_at path = true ->
    text_in (i_params inst) path s.
  Proof. intros A I P K. apply (plain_value _ _ _ _ I P K A). Qed.
  Lemma quantity_value name rest path u v : In (name, Text ("::" ++ rest)%string) decls -> str_split rest "." = path -> unit_at path = Some u ->
    assoc name (i_data inst) = Ok (Scalar v) ->
    (v = VBool false /\ lookup (i_params inst) path = Some (VBool false)) \/ exists q, v = VFloat (FFin q) /\ quantity_in o (i_params inst) path u (Q2R q).
  Proof.
    intros I P K A. unfold unit_at in K. destruct (template_node path) as [n|] eqn:T; [|discriminate].
    destruct (documented _ _ _ _ _ I P T A) as (w & L & HO). destruct (quantity_node n) eqn:QN; [|discriminate].
    assert (Q : has_type n "quantity").
    { unfold quantity_node in QN. unfold has_type. destruct (entry n "type") as [[| | | |s| |]|]; try discriminate. apply String.eqb_eq in QN. subst. reflexivity. }
    destruct HO as [(_ & -> & ->)|[(_ & NF & u' & q & U & PI & ->)|[Q' _]]]; [auto| |contradiction]. right. exists q. split; [reflexivity|].
    rewrite U in K. injection K as <-. exists w, q. split; [exact L|]. split; [exact NF|]. split; [|reflexivity]. unfold quant.
    assert (B : (true && match w with VBool false => true | _ => false end)%bool = false) by (cbn [andb]; destruct w as [|[]| | | | |]; congruence).
    rewrite B, PI. reflexivity.
  Qed.
  Lemma from_quantity name rest path u x : scalar_is inst name x -> In (name, Text ("::" ++ rest)%string) decls -> str_split rest "." = path -> unit_at path = Some u ->
    quantity_in o (i_params inst) path u x.
  Proof.
    intros (v & A & N) I P K. destruct (quantity_value _ _ _ _ _ I P K A) as [[-> _]|(q & -> & Q)]; [discriminate N|]. cbn [number] in N. apply Ok_inj in N. subst x. exact Q.
  Qed.
  Lemma from_optional name rest path u x : limit_is inst name x -> In (name, Text ("::" ++ rest)%string) decls -> str_split rest "." = path -> unit_at path = Some u ->
    optional_quantity_in o (i_params inst) path u x.
  Proof.
    intros (v & A & N) I P K. destruct (quantity_value _ _ _ _ _ I P K A) as [[-> Q]|(q & -> & Q)]; destruct x as [y|].
    - discriminate N.
    - exact Q.
    - cbn [number] in N. apply Ok_inj in N. subst y. exact Q.
    - discriminate N.
  Qed.
End Scalars.
Ltac listed := unfold base_params, emissions_params, coacch_params, mitigation_params, globalcostpool_params, effort_params, cobbdouglas_params, elasmu_params, inequal_params, objective_params;
  cbn [app In]; repeat (first [left; reflexivity | right]).

(** Whatever the user writes: if a model is created (without custom_mapping), every number of its equations
    is the one at the documented place of the accepted configuration, quantities in the model's units. *)
Lemma C60_configuration_reaches_model_pf : forall o disk mo uf sp c user inst p, distinct_keys user ->
  construct o disk mo uf sp c user = Ok inst -> (forall name, ~ customised (i_params inst) name) -> loads inst p ->
  configured o (i_params inst) p.
Proof.
  intros o disk mo uf sp c user inst p DU H NC L.
  destruct (module_names _ _ _ _ _ _ _ _ _ H L) as (ch & decls & CH & MP & COM & CO & PO & IN).
  Ltac num pf := match goal with DU : distinct_keys ?u, H : construct _ _ _ _ _ _ ?u = _, NC : forall name, ~ customised _ name, CH : choices_of _ = _, MP : model_params _ = Ok ?d, COM : forall d0, In d0 (base_params ++ _) -> In d0 ?d |- _ =>
    eapply from_number; [exact DU|exact H|exact NC|exact CH|exact MP|exact pf|apply COM; listed|reflexivity|vm_compute; reflexivity] end.
  Ltac lim pf := match goal with DU : distinct_keys ?u, H : construct _ _ _ _ _ _ ?u = _, NC : forall name, ~ customised _ name, CH : choices_of _ = _, MP : model_params _ = Ok ?d, COM : forall d0, In d0 (base_params ++ _) -> In d0 ?d |- _ =>
    eapply from_limit; [exact DU|exact H|exact NC|exact CH|exact MP|exact pf|apply COM; listed|reflexivity|vm_compute; reflexivity] end.
  Ltac flag pf := match goal with DU : distinct_keys ?u, H : construct _ _ _ _ _ _ ?u = _, NC : forall name, ~ customised _ name, CH : choices_of _ = _, MP : model_params _ = Ok ?d, COM : forall d0, In d0 (base_params ++ _) -> In d0 ?d |- _ =>
    eapply from_flag; [exact DU|exact H|exact NC|exact CH|exact MP|exact pf|apply COM; listed|reflexivity|vm_compute; reflexivity] end.
  Ltac qty pf := match goal with DU : distinct_keys ?u, H : construct _ _ _ _ _ _ ?u = _, NC : forall name, ~ customised _ name, CH : choices_of _ = _, MP : model_params _ = Ok ?d, COM : forall d0, In d0 (base_params ++ _) -> In d0 ?d |- _ =>
    eapply from_quantity; [exact DU|exact H|exact NC|exact CH|exact MP|exact pf|apply COM; listed|reflexivity|vm_compute; reflexivity] end.
  Ltac opt pf := match goal with DU : distinct_keys ?u, H : construct _ _ _ _ _ _ ?u = _, NC : forall name, ~ customised _ name, CH : choices_of _ = _, MP : model_params _ = Ok ?d, COM : forall d0, In d0 (base_params ++ _) -> In d0 ?d |- _ =>
    eapply from_optional; [exact DU|exact H|exact NC|exact CH|exact MP|exact pf|apply COM; listed|reflexivity|vm_compute; reflexivity] end.
  pose proof (construct_inv _ _ _ _ _ _ _ _ H) as (raw & rs & ch' & decls' & start & d & CK & PV & RS & (items_l & IT & RN) & _ & _ & _ & SA & _ & LS & LD & _).
  destruct (C10_grid_values_pf _ _ _ _ _ _ _ _ H (fun name _ => NC name)) as (start' & d' & LS' & LD' & A1 & A2 & _ & A4 & A5).
  assert (start' = start) by congruence. assert (d' = d) by congruence. subst start' d'.
  unfold store_args_of in SA. apply config_lookup in LS as LS2. apply config_lookup in LD as LD2. rewrite LS2 in SA. cbn [bind] in SA.
  apply bind_ok in SA as (s & YS & SA). apply bind_ok in SA as (ev & LE & SA). apply bind_ok in SA as (e & YE & SA). rewrite LD2 in SA. cbn [bind] in SA.
  apply bind_ok in SA as (dd & YD & SA). apply bind_ok in SA as (vs & VS & SA). apply bind_ok in SA as (vs2 & VS2 & SA). apply bind_ok in SA as (vs3 & VS3 & SA).
  apply Ok_inj in SA. rewrite SA in A4. cbn [a_start a_end a_dt] in A4.
  assert (YN : forall v x, year_number v = Ok x -> number v = Ok x) by (intros [| | |[]| | |] x; cbn; try discriminate; auto).
  assert (S1 : beginyear p = s).
  { destruct (ld_beginyear _ _ L) as (v & V & N). unfold data_of in V. rewrite A1 in V. injection V as <-. rewrite (YN _ _ YS) in N. apply Ok_inj in N. auto. }
  assert (S2 : dt p = dd).
  { destruct (ld_dt _ _ L) as (v & V & N). unfold data_of in V. rewrite A2 in V. injection V as <-. rewrite (YN _ _ YD) in N. apply Ok_inj in N. auto. }
  assert (S3 : Z.of_nat (tf p) = (num_years s e dd - 1)%Z).
  { pose proof (ld_tf _ _ L) as V. unfold data_of in V. rewrite A4 in V. injection V as <-. reflexivity. }
  apply config_lookup in LE.
  assert (KEYS : exists dct, rs = VDict dct /\ map fst dct = map KStr (map fst items_l)).
  { unfold items in IT. destruct rs as [| | | | | |dct]; try discriminate. exists dct. split; [reflexivity|]. clear - IT. revert items_l IT.
    induction dct as [|[k x] dct IH]; intros l IT; cbn [map_result] in IT; [apply Ok_inj in IT; subst l; reflexivity|].
    apply bind_ok in IT as (kx & K & IT). apply bind_ok in IT as (l' & L' & IT). apply Ok_inj in IT. subst l. cbn [fst snd] in K.
    destruct k as [k|z]; [|discriminate]. apply Ok_inj in K. subst kx. cbn [map fst]. f_equal. apply IH, L'. }
  constructor.
  - exists start. split; [exact LS|]. rewrite S1. apply YN, YS.
  - exists d. split; [exact LD|]. rewrite S2. apply YN, YD.
  - exists e. split; [exists ev; split; [exact LE|apply YN, YE]|]. rewrite S1, S2. intros SE DP. unfold year. rewrite S1, S2.
    destruct (C11_grid_covers_horizon_pf s e dd DP SE) as (n & _ & N & _ & K & _).
    assert (n = tf p) as <- by lia. unfold year_at in K. exact K.
  - destruct KEYS as (dct & -> & K). exists dct. split; [exact RS|].
    pose proof (ld_regions _ _ L) as V. unfold data_of in V. rewrite A5 in V. injection V as V. assert (RG : regions p = map fst items_l) by congruence. rewrite RG. split; [exact K|].
    assert (AC : accepted o user raw (i_params inst) (i_tree inst)) by (split; [exact DU|auto]).
    pose proof (regions_distinct _ _ _ _ _ _ AC RS) as ND. rewrite K in ND. apply NoDup_map_inv in ND. exact ND.
  - flag (ld_intensity _ _ L).
  - flag (ld_trapz _ _ L).
  - qty (ld_T0 _ _ L).
  - qty (ld_TCRE _ _ L).
  - opt (ld_target _ _ L).
  - num (ld_reversible _ _ L).
  - opt (ld_budget _ _ L).
  - lim (ld_inertia_global _ _ L).
  - lim (ld_inertia_regional _ _ L).
  - opt (ld_global_min _ _ L).
  - opt (ld_regional_min _ _ L).
  - flag (ld_non_increasing _ _ L).
  - flag (ld_no_pos _ _ L).
  - exact (ld_damage_module _ _ L).
  - exact (ld_trade_module _ _ L).
  - exact (ld_transfer_module _ _ L).
  - exact (ld_welfare_module _ _ L).
  - exact (ld_objective_module _ _ L).
  - intros E. eapply from_number; [exact DU|exact H|exact NC|exact CH|exact MP|exact (ld_scale _ _ L E)|apply (CO E); listed|reflexivity|vm_compute; reflexivity].
  - qty (ld_gamma _ _ L).
  - num (ld_beta _ _ L).
  - num (ld_min_costs _ _ L).
  - num (ld_LBD_rate _ _ L).
  - qty (ld_LBD_scaling _ _ L).
  - num (ld_LOT _ _ L).
  - intros E. eapply from_limit; [exact DU|exact H|exact NC|exact CH|exact MP|exact (ld_min_payment _ _ L E)|apply (PO E); listed|reflexivity|vm_compute; reflexivity].
  - intros E. eapply from_limit; [exact DU|exact H|exact NC|exact CH|exact MP|exact (ld_max_payment _ _ L E)|apply (PO E); listed|reflexivity|vm_compute; reflexivity].
  - eapply from_text; [exact DU|exact H|exact NC|exact CH|exact MP|exact (ld_regime _ _ L)|apply COM; listed|reflexivity|vm_compute; reflexivity].
  - lim (ld_percapconv _ _ L).
  - num (ld_alpha _ _ L).
  - num (ld_dk _ _ L).
  - num (ld_sr _ _ L).
  - flag (ld_ignore _ _ L).
  - num (ld_elasmu _ _ L).
  - intros E. eapply from_number; [exact DU|exact H|exact NC|exact CH|exact MP|exact (ld_aversion _ _ L E)|apply (IN E); listed|reflexivity|vm_compute; reflexivity].
  - num (ld_PRTP _ _ L).
Qed.

(** *** Input data *)
(** [f] holds the numbers of a column of a regional parameter file (with the user's overrides, C15 and C16); [g] its texts. *)
Definition column_used (mo : list (pyval * list pyval) -> list (pyval * list pyval)) (inst : instance) (p : pars) (category column : string) (f : region -> R) : Prop :=
  forall r v x, In r (regions p) -> getregional mo (i_store inst) category column r = Ok v -> number v = Ok x -> f r = x.
Definition texts_used (mo : list (pyval * list pyval) -> list (pyval * list pyval)) (inst : instance) (p : pars) (category column : string) (g : region -> string) : Prop :=
  forall r s, In r (regions p) -> getregional mo (i_store inst) category column r = Ok (VStr s) -> g r = s.
(** The data store's series of a variable, at the model years *)
Definition series_used (inst : instance) (p : pars) (variable : string) (f : nat -> region -> R) : Prop :=
  forall t r, (t <= tf p)%nat -> In r (regions p) -> interp_data (i_args inst) (i_series inst) (year p t) r variable = Ok (f t r).
Definition adapted (params : pyval) (label : string) : Prop :=
  exists a, lookup params ["economics"; "damages"; "coacch_slr_withadapt"] = Some a /\ label = if py_truth a then "Ad" else "NoAd".
Record inputs_used (o : oracles) (mo : list (pyval * list pyval) -> list (pyval * list pyval)) (inst : instance) (p : pars) : Prop := {
  iu_population : series_used inst p "population" (population p);
  iu_GDP : series_used inst p "GDP" (baseline_GDP p);
  iu_emissions : series_used inst p "emissions" (baseline_emissions p);
  iu_capital : column_used mo inst p "economics" "init_capital_factor" (init_capital_factor p);
  iu_scaling : forall k, lookup (i_params inst) ["economics"; "MAC"; "regional calibration factor"] = Some k ->
    column_used mo inst p "MAC" (show o k) (MAC_scaling p);
  iu_mortality : dmg_module p = COACCH -> forall age f, In (age, f) [("oldest", mort_oldest p); ("older", mort_older p); ("young", mort_young p)] ->
    column_used mo inst p "mortality" (age ++ "_a") (fun r => fst (fst (f r))) /\
    column_used mo inst p "mortality" (age ++ "_b") (fun r => snd (fst (f r))) /\
    column_used mo inst p "mortality" (age ++ "_c") (fun r => snd (f r));
  (* separate damage functions *)
  iu_noslr : dmg_module p = COACCH -> ~ combined (i_params inst) -> forall q, lookup (i_params inst) ["economics"; "damages"; "quantile"] = Some q ->
    texts_used mo inst p "COACCH" "NoSLR_form" (d_form (dmg_noslr p)) /\ column_used mo inst p "COACCH" "NoSLR_b1" (d_b1 (dmg_noslr p)) /\
    column_used mo inst p "COACCH" "NoSLR_b2" (d_b2 (dmg_noslr p)) /\ column_used mo inst p "COACCH" "NoSLR_b3" (d_b3 (dmg_noslr p)) /\
    column_used mo inst p "COACCH" ("NoSLR_a (q=" ++ show o q ++ ")")%string (d_a (dmg_noslr p));
  iu_slr : dmg_module p = COACCH -> ~ combined (i_params inst) -> forall q ad, lookup (i_params inst) ["economics"; "damages"; "quantile"] = Some q ->
    adapted (i_params inst) ad ->
    texts_used mo inst p "COACCH" ("SLR-" ++ ad ++ "_form")%string (d_form (dmg_slr p)) /\ column_used mo inst p "COACCH" ("SLR-" ++ ad ++ "_b1")%string (d_b1 (dmg_slr p)) /\
    column_used mo inst p "COACCH" ("SLR-" ++ ad ++ "_b2")%string (d_b2 (dmg_slr p)) /\ column_used mo inst p "COACCH" ("SLR-" ++ ad ++ "_b3")%string (d_b3 (dmg_slr p)) /\
    column_used mo inst p "COACCH" ("SLR-" ++ ad ++ "_a (q=" ++ show o q ++ ")")%string (d_a (dmg_slr p));
  (* combined damage functions: one quadratic function of temperature, no separate sea-level rise *)
  iu_combined : combined (i_params inst) -> forall q ad, lookup (i_params inst) ["economics"; "damages"; "quantile"] = Some q -> adapted (i_params inst) ad ->
    column_used mo inst p "COACCH" ("combined_b1_" ++ ad ++ "-q" ++ show o q)%string (d_b1 (dmg_noslr p)) /\
    column_used mo inst p "COACCH" ("combined_b2_" ++ ad ++ "-q" ++ show o q)%string (d_b2 (dmg_noslr p)) /\
    forall r, In r (regions p) -> d_form (dmg_noslr p) r = "Robust-Quadratic" /\ d_b3 (dmg_noslr p) r = 0 /\ d_a (dmg_noslr p) r = 1 /\
      d_form (dmg_slr p) r = "Robust-Linear" /\ d_b1 (dmg_slr p) r = 0 /\ d_b2 (dmg_slr p) r = 0 /\ d_b3 (dmg_slr p) r = 0 /\ d_a (dmg_slr p) r = 0
}.
Lemma in_fst {A} (k : string) (l : list (string * A)) : In k (map fst l) -> exists v, In (k, v) l.
Proof. intros H. apply in_map_iff in H as ([k' v] & <- & H). exists v. exact H. Qed.
Lemma combined_dec params : combined params \/ ~ combined params.
Proof.
  unfold combined. destruct (lookup params ["model"; "damage module"]) as [[| | | |s| |]|]; try (right; intros [E _]; congruence).
  destruct (String.eqb s "COACCH") eqn:E; [|right; intros [E' _]; injection E' as ->; discriminate]. apply String.eqb_eq in E. subst s.
  destruct (lookup params ["economics"; "damages"; "coacch_combined_slr_nonslr_damages"]) as [v|]; [|right; intros [_ (v & X & _)]; congruence].
  destruct (py_truth v) eqn:T; [left; split; [reflexivity|]; exists v; auto|right; intros [_ (v' & X & Y)]; congruence].
Qed.
Ltac declared := unfold base_params, emissions_params, coacch_params, mitigation_params, globalcostpool_params, effort_params, cobbdouglas_params, elasmu_params, inequal_params, objective_params;
  cbn [app map fst In]; repeat (first [left; reflexivity | right]).
Lemma C60_inputs_reach_model_pf : forall o disk mo uf sp c user inst p, distinct_keys user ->
  construct o disk mo uf sp c user = Ok inst -> (forall name, ~ customised (i_params inst) name) -> plain_columns o (i_params inst) ->
  loads inst p -> inputs_used o mo inst p.
Proof.
  intros o disk mo uf sp c user inst p DU H NC PC L.
  destruct (module_names _ _ _ _ _ _ _ _ _ H L) as (ch & decls & CH & MP & COM & CO & PO & IN).
  pose proof (construct_inv _ _ _ _ _ _ _ _ H) as (raw & rs & ch' & decls' & start & d & _ & _ & RS & _ & _ & _ & _ & SA & _ & LS & LD & _).
  destruct (C10_grid_values_pf _ _ _ _ _ _ _ _ H (fun name _ => NC name)) as (start' & d' & LS' & LD' & A1 & A2 & _ & A4 & A5).
  assert (start' = start) by congruence. assert (d' = d) by congruence. subst start' d'.
  assert (YN : forall v x, year_number v = Ok x -> number v = Ok x) by (intros [| | |[]| | |] x; cbn; try discriminate; auto).
  assert (GRID : beginyear p = a_start (i_args inst) /\ dt p = a_dt (i_args inst)).
  { unfold store_args_of in SA. apply config_lookup in LS as LS2. apply config_lookup in LD as LD2. rewrite LS2 in SA. cbn [bind] in SA.
    apply bind_ok in SA as (s & YS & SA). apply bind_ok in SA as (ev & LE & SA). apply bind_ok in SA as (e & YE & SA). rewrite LD2 in SA. cbn [bind] in SA.
    apply bind_ok in SA as (dd & YD & SA). apply bind_ok in SA as (vs & VS & SA). apply bind_ok in SA as (vs2 & VS2 & SA). apply bind_ok in SA as (vs3 & VS3 & SA).
    apply Ok_inj in SA. rewrite SA. cbn [a_start a_dt]. split.
    - destruct (ld_beginyear _ _ L) as (v & V & N). unfold data_of in V. rewrite A1 in V. injection V as <-. rewrite (YN _ _ YS) in N. apply Ok_inj in N. auto.
    - destruct (ld_dt _ _ L) as (v & V & N). unfold data_of in V. rewrite A2 in V. injection V as <-. rewrite (YN _ _ YD) in N. apply Ok_inj in N. auto. }
  destruct GRID as [G1 G2].
  assert (RG : regions p = i_regions inst).
  { pose proof (ld_regions _ _ L) as V. unfold data_of in V. rewrite A5 in V. injection V as V. auto. }
  assert (TF : forall t, (t <= tf p)%nat -> In t (model_steps (a_start (i_args inst)) (a_end (i_args inst)) (a_dt (i_args inst)))).
  { intros t T. pose proof (ld_tf _ _ L) as V. unfold data_of in V. rewrite A4 in V. injection V as V. unfold model_steps. apply in_seq. lia. }
  assert (SER : forall name var f, In (name, var) [("population", "population"); ("baseline_GDP", "GDP"); ("baseline_emissions", "emissions")] ->
     series_is inst name f -> series_used inst p var f).
  { intros name var f NV (l & A & F) t r T R. destruct (C10_data_values_pf _ _ _ _ _ _ _ _ H name var NV (NC name)) as (l' & A' & K & K2).
    unfold data_of in A. rewrite A in A'. injection A' as <-. rewrite RG in R. destruct (K t r (TF t T) R) as (x & X1). pose proof (K2 _ _ _ X1) as X2.
    unfold year. rewrite G1, G2. unfold year_at in X2. rewrite X2. rewrite (F t r x X1). reflexivity. }
  assert (REG : forall name cat col, reads o (i_params inst) name cat col -> In name (map fst decls) -> (combined (i_params inst) -> ~ In name combined_names) ->
     (forall f, regional_is inst name f -> column_used mo inst p cat col f) /\ (forall g, texts_are inst name g -> texts_used mo inst p cat col g)).
  { intros name cat col RD ID NB.
    destruct (C10_regional_values_pf _ _ _ _ _ _ _ _ H PC ch decls name cat col CH MP ID RD (NC name) NB) as (l & A & ML & K). split.
    - intros f (l' & A' & F) r v x R GV N. unfold data_of in A'. rewrite A in A'. injection A' as <-. rewrite RG, <- ML in R. apply in_fst in R as (v' & R).
      pose proof (K _ _ R) as GV'. rewrite GV in GV'. apply Ok_inj in GV'. subst v'. exact (F _ _ _ R N).
    - intros g (l' & A' & F) r s R GV. unfold data_of in A'. rewrite A in A'. injection A' as <-. rewrite RG, <- ML in R. apply in_fst in R as (v' & R).
      pose proof (K _ _ R) as GV'. rewrite GV in GV'. apply Ok_inj in GV'. subst v'. exact (F _ _ R). }
  assert (DECL : forall name, In name (map fst (base_params ++ emissions_params ++ mitigation_params ++ effort_params ++ cobbdouglas_params ++ elasmu_params ++ objective_params)) -> In name (map fst decls)).
  { intros name I. apply in_map_iff in I as (x & <- & I). apply in_map. apply COM, I. }
  assert (DECLC : dmg_module p = COACCH -> forall name, In name (map fst coacch_params) -> In name (map fst decls)).
  { intros E name I. apply in_map_iff in I as (x & <- & I). apply in_map. apply (CO E), I. }
  constructor.
  - apply (SER "population" "population"); [cbn; auto|exact (ld_population _ _ L)].
  - apply (SER "baseline_GDP" "GDP"); [cbn; auto|exact (ld_GDP _ _ L)].
  - apply (SER "baseline_emissions" "emissions"); [cbn; auto|exact (ld_emissions _ _ L)].
  - refine (proj1 (REG "init_capitalstock_factor" _ _ (reads_capital _ _) _ _) _ (ld_capital _ _ L)); [apply DECL; declared|intros _; apply not_named; reflexivity].
  - intros k K. refine (proj1 (REG "MAC_scaling_factor" _ _ (reads_mac _ _ _ K) _ _) _ (ld_scaling _ _ L)); [apply DECL; declared|intros _; apply not_named; reflexivity].
  - intros E age f I.
    assert (T : triple_is inst ("mortality_param_" ++ age) f).
    { cbn [In] in I. destruct I as [I|[I|[I|[]]]]; injection I as <- <-; [exact (ld_oldest _ _ L E)|exact (ld_older _ _ L E)|exact (ld_young _ _ L E)]. }
    assert (A : In age ["oldest"; "older"; "young"]) by (cbn [In] in I |- *; destruct I as [I|[I|[I|[]]]]; injection I as <- _; auto).
    destruct T as (T1 & T2 & T3).
    assert (W : forall x, In x ["a"; "b"; "c"] -> In ("mortality_param_" ++ age ++ "_" ++ x)%string (map fst decls) /\ ~ In ("mortality_param_" ++ age ++ "_" ++ x)%string combined_names).
    { intros x X. clear - A X DECLC E. cbn [In] in A, X. destruct A as [<-|[<-|[<-|[]]]]; destruct X as [<-|[<-|[<-|[]]]]; (split; [apply (DECLC E); declared|apply not_named; reflexivity]). }
    split; [|split].
    + destruct (W "a") as [W1 W2]; [cbn; auto|]. apply (proj1 (REG _ _ _ (reads_mortality _ _ age "a" A ltac:(cbn; auto)) W1 (fun _ => W2))).
      replace ("mortality_param_" ++ age ++ "_" ++ "a")%string with (("mortality_param_" ++ age) ++ "_a")%string by (rewrite append_assoc'; reflexivity). exact T1.
    + destruct (W "b") as [W1 W2]; [cbn; auto|]. apply (proj1 (REG _ _ _ (reads_mortality _ _ age "b" A ltac:(cbn; auto)) W1 (fun _ => W2))).
      replace ("mortality_param_" ++ age ++ "_" ++ "b")%string with (("mortality_param_" ++ age) ++ "_b")%string by (rewrite append_assoc'; reflexivity). exact T2.
    + destruct (W "c") as [W1 W2]; [cbn; auto|]. apply (proj1 (REG _ _ _ (reads_mortality _ _ age "c" A ltac:(cbn; auto)) W1 (fun _ => W2))).
      replace ("mortality_param_" ++ age ++ "_" ++ "c")%string with (("mortality_param_" ++ age) ++ "_c")%string by (rewrite append_assoc'; reflexivity). exact T3.
  - intros E NB q Q. destruct (ld_noslr _ _ L E) as (T0 & T1 & T2 & T3 & T4).
    split; [|split; [|split; [|split]]].
    + refine (proj2 (REG "damage_noslr_form" _ _ (reads_noslr _ _ "form" _) _ (fun K => match NB K with end)) _ T0); [cbn; auto|apply (DECLC E); declared].
    + refine (proj1 (REG "damage_noslr_b1" _ _ (reads_noslr _ _ "b1" _) _ (fun K => match NB K with end)) _ T1); [cbn; auto|apply (DECLC E); declared].
    + refine (proj1 (REG "damage_noslr_b2" _ _ (reads_noslr _ _ "b2" _) _ (fun K => match NB K with end)) _ T2); [cbn; auto|apply (DECLC E); declared].
    + refine (proj1 (REG "damage_noslr_b3" _ _ (reads_noslr _ _ "b3" _) _ (fun K => match NB K with end)) _ T3); [cbn; auto|apply (DECLC E); declared].
    + refine (proj1 (REG "damage_noslr_a" _ _ (reads_noslr_a _ _ q Q) _ (fun K => match NB K with end)) _ T4); apply (DECLC E); declared.
  - intros E NB q ad Q (a & A & ->). destruct (ld_slr _ _ L E) as (T0 & T1 & T2 & T3 & T4). fold (adapt_label a).
    split; [|split; [|split; [|split]]].
    + refine (proj2 (REG "damage_slr_form" _ _ (reads_slr _ _ "form" a _ A) _ (fun K => match NB K with end)) _ T0); [cbn; auto|apply (DECLC E); declared].
    + refine (proj1 (REG "damage_slr_b1" _ _ (reads_slr _ _ "b1" a _ A) _ (fun K => match NB K with end)) _ T1); [cbn; auto|apply (DECLC E); declared].
    + refine (proj1 (REG "damage_slr_b2" _ _ (reads_slr _ _ "b2" a _ A) _ (fun K => match NB K with end)) _ T2); [cbn; auto|apply (DECLC E); declared].
    + refine (proj1 (REG "damage_slr_b3" _ _ (reads_slr _ _ "b3" a _ A) _ (fun K => match NB K with end)) _ T3); [cbn; auto|apply (DECLC E); declared].
    + refine (proj1 (REG "damage_slr_a" _ _ (reads_slr_a _ _ a q A Q) _ (fun K => match NB K with end)) _ T4); apply (DECLC E); declared.
  - intros CB q ad Q (a & A & ->).
    assert (E : dmg_module p = COACCH).
    { destruct CB as [CB _]. pose proof (ld_damage_module _ _ L) as M. unfold module_is in M. rewrite CB in M. injection M as M. destruct (dmg_module p); [reflexivity|discriminate]. }
    destruct (C10_combined_damages_pf _ _ _ _ _ _ _ _ DU H CB) as (B & F1 & F2 & F3 & F4 & F5). cbv zeta in *.
    destruct (ld_noslr _ _ L E) as (T0 & T1 & T2 & T3 & T4). destruct (ld_slr _ _ L E) as (S0 & S1 & S2 & S3 & S4).
    assert (CU : forall x f, In x ["b1"; "b2"] -> regional_is inst ("damage_noslr_" ++ x) f ->
       column_used mo inst p "COACCH" ("combined_" ++ x ++ "_" ++ (if py_truth a then "Ad" else "NoAd") ++ "-q" ++ show o q)%string f).
    { intros x f X (l' & A' & F) r v y R GV N. destruct (B x X) as (l & q' & a' & Q' & AD & AS & ML & K). unfold data_of in A'. rewrite AS in A'. injection A' as <-.
      assert (q' = q) by congruence. assert (a' = a) by congruence. subst q' a'. rewrite RG, <- ML in R. apply in_fst in R as (v' & R).
      pose proof (K _ _ R) as GV'. unfold adapt_label in GV'. rewrite GV in GV'. apply Ok_inj in GV'. subst v'. exact (F _ _ _ R N). }
    split; [apply (CU "b1"); [cbn; auto|exact T1]|]. split; [apply (CU "b2"); [cbn; auto|exact T2]|].
    intros r R. rewrite RG in R.
    assert (EV : forall name v x f, assoc name (i_data inst) = Ok (ByRegion (map (fun r => (r, v)) (i_regions inst))) -> number v = Ok x -> regional_is inst name f -> f r = x).
    { intros name v x f AS N (l' & A' & F). unfold data_of in A'. rewrite AS in A'. injection A' as <-. apply (F r v x); [|exact N]. apply in_map_iff. exists r. auto. }
    assert (ET : forall name s g, assoc name (i_data inst) = Ok (ByRegion (map (fun r => (r, VStr s)) (i_regions inst))) -> texts_are inst name g -> g r = s).
    { intros name s g AS (l' & A' & F). unfold data_of in A'. rewrite AS in A'. injection A' as <-. apply (F r s). apply in_map_iff. exists r. auto. }
    split; [exact (ET _ _ _ F1 T0)|]. split; [exact (EV _ _ _ _ F2 eq_refl T3)|]. split; [exact (EV _ _ _ _ F3 eq_refl T4)|].
    split; [exact (ET _ _ _ F4 S0)|]. split; [exact (EV _ _ _ _ (F5 "b1" ltac:(cbn; auto)) eq_refl S1)|].
    split; [exact (EV _ _ _ _ (F5 "b2" ltac:(cbn; auto)) eq_refl S2)|]. split; [exact (EV _ _ _ _ (F5 "b3" ltac:(cbn; auto)) eq_refl S3)|].
    exact (EV _ _ _ _ (F5 "a" ltac:(cbn; auto)) eq_refl S4).
Qed.
