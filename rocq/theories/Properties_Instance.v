(** Property theorems (generated by tools/gen_props.py from the proved lemmas; statements only). *)
From Verif Require Import PyBase NestedDict Parsers Config ConfigDefault ConfigSpec TimeGrid DataStore RegionalParams Instantiate InstFacts InstantiateLemmas.
Import ListNotations.
Open Scope string_scope.
Open Scope list_scope.

(** Whatever modules are chosen, the "::" path of every model parameter is the path of a configuration parameter
    (a number, boolean, choice or quantity). *)
Theorem C10_every_path_declared : forall c decls name rest, model_params c = Ok decls -> In (name, Text ("::" ++ rest)%string) decls ->
  exists node, param_at config_default (str_split rest ".") node /\
    (has_type node "float" \/ has_type node "int" \/ has_type node "bool" \/ has_type node "enum" \/ has_type node "quantity").
Proof. exact C10_every_path_declared_pf. Qed.
Print Assumptions C10_every_path_declared.

Theorem C10_scalar_values : forall o disk mo uf sp c user inst, distinct_keys user -> construct o disk mo uf sp c user = Ok inst ->
  forall ch decls name rest, choices_of (i_params inst) = Ok ch -> model_params ch = Ok decls ->
  In (name, Text ("::" ++ rest)%string) decls -> ~ customised (i_params inst) name ->
  exists node v w, param_at config_default (str_split rest ".") node /\ lookup (i_params inst) (str_split rest ".") = Some v /\
    handed_over o node v w /\ assoc name (i_data inst) = Ok (Scalar w).
Proof. exact C10_scalar_values_pf. Qed.
Print Assumptions C10_scalar_values.

(** A regional parameter holds, for every region, the value the regional parameter store gives for its column:
    the user's override if there is one, otherwise the file's (C15, C16). *)
Theorem C10_regional_values : forall o disk mo uf sp c user inst, construct o disk mo uf sp c user = Ok inst -> plain_columns o (i_params inst) ->
  forall ch decls name cat col, choices_of (i_params inst) = Ok ch -> model_params ch = Ok decls -> In name (map fst decls) ->
  reads o (i_params inst) name cat col -> ~ customised (i_params inst) name ->
  (combined (i_params inst) -> ~ In name combined_names) ->
  exists l, assoc name (i_data inst) = Ok (ByRegion l) /\ map fst l = i_regions inst /\
    forall r v, In (r, v) l -> getregional mo (i_store inst) cat col r = Ok v.
Proof. exact C10_regional_values_pf. Qed.
Print Assumptions C10_regional_values.

(** The baseline data of an instance: one value per time step and region, interpolated by the data store at the step's year. *)
Theorem C10_data_values : forall o disk mo uf sp c user inst, construct o disk mo uf sp c user = Ok inst ->
  forall name var, In (name, var) [("population", "population"); ("baseline_GDP", "GDP"); ("baseline_emissions", "emissions")] ->
  ~ customised (i_params inst) name ->
  exists l, assoc name (i_data inst) = Ok (ByTimeAndRegion l) /\
    (forall t r, In t (model_steps (a_start (i_args inst)) (a_end (i_args inst)) (a_dt (i_args inst))) -> In r (i_regions inst) -> exists x, In ((t, r), x) l) /\
    forall t r x, In ((t, r), x) l -> interp_data (i_args inst) (i_series inst) (year_at (a_start (i_args inst)) (a_dt (i_args inst)) t) r var = Ok x.
Proof. exact C10_data_values_pf. Qed.
Print Assumptions C10_data_values.

(** The time grid and the regions of an instance. *)
Theorem C10_grid_values : forall o disk mo uf sp c user inst, construct o disk mo uf sp c user = Ok inst ->
  (forall name, In name ["beginyear"; "dt"; "tf"; "t"; "regions"] -> ~ customised (i_params inst) name) ->
  exists start dt, lookup (i_params inst) ["time"; "start"] = Some start /\ lookup (i_params inst) ["time"; "dt"] = Some dt /\
    assoc "beginyear" (i_data inst) = Ok (Scalar start) /\ assoc "dt" (i_data inst) = Ok (Scalar dt) /\
    assoc "t" (i_data inst) = Ok (Steps (num_years (a_start (i_args inst)) (a_end (i_args inst)) (a_dt (i_args inst)))) /\
    assoc "tf" (i_data inst) = Ok (Scalar (VInt (num_years (a_start (i_args inst)) (a_end (i_args inst)) (a_dt (i_args inst)) - 1))) /\
    assoc "regions" (i_data inst) = Ok (Names (i_regions inst)).
Proof. exact C10_grid_values_pf. Qed.
Print Assumptions C10_grid_values.

(** Combined damages: quadratic non-SLR damages from the combined columns, no separate SLR damages. *)
Theorem C10_combined_damages : forall o disk mo uf sp c user inst, distinct_keys user -> construct o disk mo uf sp c user = Ok inst -> combined (i_params inst) ->
  let everywhere v := Ok (ByRegion (map (fun r => (r, v)) (i_regions inst))) in
  (forall x, In x ["b1"; "b2"] -> exists l q a, lookup (i_params inst) ["economics"; "damages"; "quantile"] = Some q /\
     lookup (i_params inst) ["economics"; "damages"; "coacch_slr_withadapt"] = Some a /\
     assoc ("damage_noslr_" ++ x)%string (i_data inst) = Ok (ByRegion l) /\ map fst l = i_regions inst /\
     forall r v, In (r, v) l -> getregional mo (i_store inst) "COACCH" ("combined_" ++ x ++ "_" ++ adapt_label a ++ "-q" ++ show o q)%string r = Ok v) /\
  assoc "damage_noslr_form" (i_data inst) = everywhere (VStr "Robust-Quadratic") /\
  assoc "damage_noslr_b3" (i_data inst) = everywhere (VInt 0) /\ assoc "damage_noslr_a" (i_data inst) = everywhere (VInt 1) /\
  assoc "damage_slr_form" (i_data inst) = everywhere (VStr "Robust-Linear") /\
  (forall x, In x ["b1"; "b2"; "b3"; "a"] -> assoc ("damage_slr_" ++ x)%string (i_data inst) = everywhere (VInt 0)).
Proof. exact C10_combined_damages_pf. Qed.
Print Assumptions C10_combined_damages.

(** An entry of custom_mapping replaces whatever the configuration gives the parameter, except the damage coefficients of
    the combined damages, which are set afterwards. *)
Theorem C10_custom_mapping_wins : forall o disk mo uf sp c user inst, distinct_keys user -> construct o disk mo uf sp c user = Ok inst ->
  forall name v, lookup (i_params inst) ["simulation"; "custom_mapping"; name] = Some v -> (combined (i_params inst) -> ~ In name combined_names) ->
  assoc name (i_data inst) = Ok (Custom v).
Proof. exact C10_custom_mapping_wins_pf. Qed.
Print Assumptions C10_custom_mapping_wins.
