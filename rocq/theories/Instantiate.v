(** mimosa/concrete_model/instantiate_params.py and mimosa/mimosa.py 51-104: from a user's dictionary to the
    values of the model parameters.

    Oracles: those of Parsers.v, DataStore.v and RegionalParams.v.  [o_repr] is python's repr of floats, used
    by the f-strings that build column names.
    Simplifications: a parameter's values are kept as python dictionaries, pyomo's own checks of them are not
    modelled; a key of the "regions" section is a string (its parser has "keys: type: str"). *)
From Verif Require Import PyBase NestedDict Parsers Config ConfigDefault DataStore RegionalParams.
Import ListNotations.
Open Scope string_scope.
Open Scope list_scope.

(** ** The declared parameters: name and documentation string.
    A doc may be a function of the parameters (instantiate_params.py 77-80); str(None) is "None". *)
Inductive doc := Text (s : string) | Computed (f : oracles -> pyval -> result string).
Definition undocumented : doc := Text "None".

Definition config (params : pyval) (path : list string) : result pyval := get_nested params (map KStr path).
(** An f-string field *)
Definition show (o : oracles) (v : pyval) : string := py_str (o_repr o) v.

(** abstract_model.py 55-85 *)
Definition base_params : list (string * doc) :=
  [("beginyear", undocumented); ("dt", undocumented); ("tf", undocumented); ("year2100", undocumented);
   ("population", Text "timeandregional::population"); ("baseline_GDP", Text "timeandregional::GDP");
   ("baseline_emissions", Text "timeandregional::emissions")].
(** emissions.py 62-79, 169-186, 354-379, 510-520 *)
Definition emissions_params : list (string * doc) :=
  [("cumulative_baseline_emissions", undocumented); ("cumulative_global_baseline_emissions", undocumented);
   ("baseline_carbon_intensity", undocumented);
   ("use_carbon_intensity_for_baseline", Text "::emissions.baseline carbon intensity");
   ("cumulative_emissions_trapz", Text "::emissions.cumulative_emissions_trapz");
   ("T0", Text "::temperature.initial"); ("TCRE", Text "::temperature.TCRE");
   ("temperature_target", Text "::temperature.target");
   ("perc_reversible_damages", Text "::economics.damages.percentage reversible");
   ("budget", Text "::emissions.carbonbudget"); ("inertia_global", Text "::emissions.inertia.global");
   ("inertia_regional", Text "::emissions.inertia.regional");
   ("global_min_level", Text "::emissions.global min level");
   ("regional_min_level", Text "::emissions.regional min level");
   ("non_increasing_emissions_after_2100", Text "::emissions.non increasing emissions after 2100");
   ("no_pos_emissions_after_budget_year", Text "::emissions.not positive after budget year")].
(** sealevelrise.py 104-120 *)
Definition slr_params : list (string * doc) :=
  map (fun s => (s, undocumented))
    ["slr_thermal_equil"; "slr_thermal_init"; "slr_thermal_adjust_rate"; "slr_gsic_melt_rate"; "slr_gsic_total_ice";
     "slr_gsic_equil_temp"; "slr_gis_melt_rate_above_thresh"; "slr_gis_init_melt_rate"; "slr_gis_init_ice_vol"].
(** coacch.py 163 *)
Definition noslr_a_doc : doc := Computed (fun o params =>
  do q <- config params ["economics"; "damages"; "quantile"];
  Ok ("regional::COACCH.NoSLR_a (q=" ++ show o q ++ ")")%string).
(** coacch.py 236-239 *)
Definition slr_param_name (params : pyval) (name : string) : result string :=
  do a <- config params ["economics"; "damages"; "coacch_slr_withadapt"];
  Ok ("regional::COACCH.SLR-" ++ (if py_truth a then "Ad" else "NoAd") ++ "_" ++ name)%string.
(** coacch.py 47-95, 151-164, 241-267 *)
Definition coacch_params : list (string * doc) :=
  [("damage_scale_factor", Text "::economics.damages.scale factor")] ++
  [("damage_noslr_form", Text "regional::COACCH.NoSLR_form"); ("damage_noslr_b1", Text "regional::COACCH.NoSLR_b1");
   ("damage_noslr_b2", Text "regional::COACCH.NoSLR_b2"); ("damage_noslr_b3", Text "regional::COACCH.NoSLR_b3");
   ("damage_noslr_a", noslr_a_doc);
   ("damage_slr_form", Computed (fun _ p => slr_param_name p "form"));
   ("damage_slr_b1", Computed (fun _ p => slr_param_name p "b1"));
   ("damage_slr_b2", Computed (fun _ p => slr_param_name p "b2"));
   ("damage_slr_b3", Computed (fun _ p => slr_param_name p "b3"));
   ("damage_slr_a", Computed (fun o p =>
      do q <- config p ["economics"; "damages"; "quantile"]; slr_param_name p ("a (q=" ++ show o q ++ ")")))] ++
  [("mortality_param_oldest_a", Text "regional::mortality.oldest_a"); ("mortality_param_oldest_b", Text "regional::mortality.oldest_b");
   ("mortality_param_oldest_c", Text "regional::mortality.oldest_c"); ("mortality_param_older_a", Text "regional::mortality.older_a");
   ("mortality_param_older_b", Text "regional::mortality.older_b"); ("mortality_param_older_c", Text "regional::mortality.older_c");
   ("mortality_param_young_a", Text "regional::mortality.young_a"); ("mortality_param_young_b", Text "regional::mortality.young_b");
   ("mortality_param_young_c", Text "regional::mortality.young_c"); ("statistical_value_life_oldest", undocumented)].
(** mitigation.py 190-195, 232, 370-372, 388 *)
Definition mitigation_params : list (string * doc) :=
  [("MAC_gamma", Text "::economics.MAC.gamma"); ("MAC_beta", Text "::economics.MAC.beta");
   ("MAC_scaling_factor", Computed (fun o params =>
      do k <- config params ["economics"; "MAC"; "regional calibration factor"]; Ok ("regional::MAC." ++ show o k)%string));
   ("rel_mitigation_costs_min_level", Text "::economics.MAC.rel_mitigation_costs_min_level");
   ("LBD_rate", Text "::economics.MAC.LBD_rate"); ("log_LBD_rate", undocumented);
   ("LBD_scaling", Text "::economics.MAC.LBD_scaling"); ("LOT_rate", Text "::economics.MAC.LOT_rate")].
(** notrade.py 28-33, globalcostpool.py 107-112 *)
Definition notrade_params : list (string * doc) :=
  [("import_export_emission_reduction_balance", undocumented); ("import_export_mitigation_cost_balance", undocumented)].
Definition globalcostpool_params : list (string * doc) :=
  [("min_rel_payment_level", Text "::economics.emission trade.min rel payment level");
   ("max_rel_payment_level", Text "::economics.emission trade.max rel payment level")].
(** notransfer.py 22-23 *)
Definition notransfer_params : list (string * doc) :=
  [("financial_transfer", undocumented); ("rel_financial_transfer", undocumented)].
(** effortsharing.py 54, 210-223 *)
Definition effort_params : list (string * doc) :=
  [("effort_sharing_regime", Text "::effort sharing.regime"); ("percapconv_share_init", undocumented);
   ("percapconv_year", Text "::effort sharing.percapconv_year"); ("percapconv_share_pop", undocumented);
   ("percapconv_share", undocumented)].
(** cobbdouglas.py 88-122 *)
Definition cobbdouglas_params : list (string * doc) :=
  [("init_capitalstock_factor", Text "regional::economics.init_capital_factor"); ("alpha", Text "::economics.GDP.alpha");
   ("dk", Text "::economics.GDP.depreciation of capital"); ("sr", Text "::economics.GDP.savings rate");
   ("ignore_damages", Text "::economics.damages.ignore damages"); ("TFP", undocumented)].
(** welfare_loss_minimising.py 54, cost_minimising.py 59, inequal_aversion_general.py 33-34 *)
Definition elasmu_params : list (string * doc) := [("elasmu", Text "::economics.elasmu")].
Definition inequal_params : list (string * doc) :=
  [("elasmu", Text "::economics.elasmu"); ("inequal_aversion", Text "::economics.inequal_aversion")].
(** utility.py 40, globalcosts.py 41 *)
Definition objective_params : list (string * doc) := [("PRTP", Text "::economics.PRTP")].

(** mimosa.py 71-75: the module choices *)
Record choices := { c_damage : pyval; c_trade : pyval; c_transfer : pyval; c_welfare : pyval; c_objective : pyval }.
Definition chosen {A} (v : pyval) (l : list (string * A)) : result A :=
  match v with
  | VStr s => match find (fun x => String.eqb (fst x) s) l with Some (_, a) => Ok a | None => Err NotImplementedError end
  | _ => Err NotImplementedError
  end.
(** abstract_model.py 26-161, the parameters only.  The modules are looked up in the order of the code. *)
Definition model_params (c : choices) : result (list (string * doc)) :=
  do dm <- chosen (c_damage c) [("COACCH", coacch_params); ("nodamage", [])];
  do tr <- chosen (c_trade c) [("notrade", notrade_params); ("globalcostpool", globalcostpool_params); ("emissiontrade", [])];
  do tf <- chosen (c_transfer c) [("notransfer", notransfer_params); ("globaldamagepool", [])];
  do we <- chosen (c_welfare c) [("welfare_loss_minimising", elasmu_params); ("cost_minimising", elasmu_params);
                                  ("inequal_aversion_general", inequal_params)];
  do ob <- chosen (c_objective c) [("utility", objective_params); ("globalcosts", objective_params)];
  Ok (base_params ++ emissions_params ++ slr_params ++ dm ++ mitigation_params ++ tr ++ tf ++ effort_params ++
      cobbdouglas_params ++ we ++ ob).

(** ** Parameter values *)
Inductive pdata :=
| Scalar (v : pyval)                                (* V(value), line 9 *)
| ByRegion (l : list (string * pyval))
| ByTimeAndRegion (l : list ((nat * string) * R))
| Steps (n : Z)                                     (* V(range(n)) *)
| Names (l : list string)                           (* V(params["regions"].keys()) *)
| Custom (v : pyval).                               (* an entry of custom_mapping, as given *)

(** dict[key] = value *)
Fixpoint put {A} (k : string) (v : A) (l : list (string * A)) : list (string * A) :=
  match l with
  | [] => [(k, v)]
  | (k', v') :: r => if String.eqb k' k then (k, v) :: r else (k', v') :: put k v r
  end.
(** dict.update *)
Definition update {A} (new l : list (string * A)) : list (string * A) := fold_left (fun m kv => put (fst kv) (snd kv) m) new l.

(** str.split(sep)[1] *)
Definition after_colons (s : string) : result string :=
  match str_split s "::" with _ :: x :: _ => Ok x | _ => Err IndexError end.
(** category, name = s.split(".", 1); ValueError without a dot *)
Fixpoint split_once (s : string) : result (string * string) :=
  match s with
  | EmptyString => Err ValueError
  | String c r => if Ascii.eqb c "." then Ok ("", r) else do x <- split_once r; Ok (String c (fst x), snd x)
  end.

Section Instance.
  Variable o : oracles.
  Variable tree : ptree.
  Variable params : pyval.
  (** regional_param_store.get(category, name) and data_store.interp_data(year, region, variable) *)
  Variable regional : string -> string -> result (list (string * pyval)).
  Variable series : R -> string -> string -> result R.
  Variables (t_start t_dt : R) (n_years : Z) (region_names : list string).

  (** 83-91 *)
  Definition scalar_value (keys : list string) : result pyval :=
    do v <- config params keys;
    do p <- ptree_get tree (map KStr keys);
    match p with
    | PNode _ => Err AttributeError
    | PLeaf p =>
        match p_type p with
        | TQuantity =>
            do q <- quant o v (p_unit p) true;
            Ok (match q with None => VBool false | Some q => VFloat (FFin q) end)
        | _ => Ok v
        end
    end.
  (** 103-111 *)
  Definition time_regional (var : string) : result (list ((nat * string) * R)) :=
    map_result (fun tr => do x <- series (year_at t_start t_dt (fst tr)) (snd tr) var; Ok (tr, x))
      (list_prod (seq 0 (Z.to_nat n_years)) region_names).

  (** 72-111, one parameter *)
  Definition assign (m : list (string * pdata)) (decl : string * doc) : result (list (string * pdata)) :=
    do d <- match snd decl with Text s => Ok s | Computed f => f o params end;
    do m <- (if str_startswith d "::" then
               do s <- after_colons d;
               do v <- scalar_value (str_split s ".");
               Ok (put (fst decl) (Scalar v) m)
             else Ok m);
    do m <- (if str_startswith d "regional::" then
               do s <- after_colons d;
               do cn <- split_once s;
               do v <- regional (fst cn) (snd cn);
               Ok (put (fst decl) (ByRegion v) m)
             else Ok m);
    if str_startswith d "timeandregional::" then
      do s <- after_colons d;
      do v <- time_regional s;
      Ok (put (fst decl) (ByTimeAndRegion v) m)
    else Ok m.

  (** 113-120; t_start and t_dt as given in the configuration *)
  Definition manual (start dt : pyval) : list (string * pdata) :=
    [("beginyear", Scalar start); ("dt", Scalar dt); ("tf", Scalar (VInt (n_years - 1))); ("t", Steps n_years);
     ("year2100", Scalar (VInt (year2100 t_start t_dt))); ("regions", Names region_names)].

  (** 124-125: "custom_mapping" in params["simulation"]; keys that are not strings are dropped here *)
  Definition custom_mapping : result (list (string * pdata)) :=
    do s <- config params ["simulation"];
    match s with
    | VDict d =>
        match dget d (KStr "custom_mapping") with
        | None => Ok []
        | Some (VDict c) => Ok (flat_map (fun kv => match fst kv with KStr k => [(k, Custom (snd kv))] | KInt _ => [] end) c)
        | Some _ => Err TypeError
        end
    | _ => Err TypeError
    end.

  (** 59-127 *)
  Definition instance_main (decls : list (string * doc)) (start dt : pyval) : result (list (string * pdata)) :=
    do m <- fold_result assign decls [];
    do c <- custom_mapping;
    Ok (update c (update (manual start dt) m)).

  (** 129-169 (the quantile is always present in a checked configuration, so 131-133 cannot fall back) *)
  Definition everywhere (v : pyval) : pdata := ByRegion (map (fun r => (r, v)) region_names).
  Definition instance_coacch : result (list (string * pdata)) :=
    do q <- (match config params ["economics"; "damages"; "quantile"] with Err KeyError => Ok (VFloat (FFin (1 # 2))) | x => x end);
    do comb <- config params ["economics"; "damages"; "coacch_combined_slr_nonslr_damages"];
    do adapt <- config params ["economics"; "damages"; "coacch_slr_withadapt"];
    let column (b : string) := ("combined_" ++ b ++ "_" ++ (if py_truth adapt then "Ad" else "NoAd") ++ "-q" ++ show o q)%string in
    if py_truth comb then
      do b1 <- regional "COACCH" (column "b1");
      do b2 <- regional "COACCH" (column "b2");
      Ok [("damage_noslr_form", everywhere (VStr "Robust-Quadratic")); ("damage_noslr_b1", ByRegion b1); ("damage_noslr_b2", ByRegion b2);
          ("damage_noslr_b3", everywhere (VInt 0)); ("damage_noslr_a", everywhere (VInt 1));
          ("damage_slr_form", everywhere (VStr "Robust-Linear")); ("damage_slr_b1", everywhere (VInt 0));
          ("damage_slr_b2", everywhere (VInt 0)); ("damage_slr_b3", everywhere (VInt 0)); ("damage_slr_a", everywhere (VInt 0))]
    else Ok [].
  (** 37-51 *)
  Definition instance_data (decls : list (string * doc)) (start dt : pyval) : result (list (string * pdata)) :=
    do damage <- config params ["model"; "damage module"];
    do m <- instance_main decls start dt;
    if py_eqb damage (VStr "COACCH") then do c <- instance_coacch; Ok (update c m) else Ok m.
End Instance.

(** ** MIMOSA(user) up to the instance data *)
(** int(np.ceil(...)) and arithmetic on the years: nan is a ValueError *)
Definition year_number (v : pyval) : result R :=
  match v with
  | VInt z => Ok (IZR z)
  | VFloat (FFin q) => Ok (Q2R q)
  | VFloat FNaN => Err ValueError
  | VFloat _ => Err OverflowError
  | _ => Err TypeError
  end.
Definition get_str (v : pyval) (k : string) : result string :=
  do x <- subscript v (KStr k); match x with VStr s => Ok s | _ => Err TypeError end.
(** items of a dictionary with string keys *)
Definition items (v : pyval) : result (list (string * pyval)) :=
  match v with
  | VDict d => map_result (fun kv => match fst kv with KStr k => Ok (k, snd kv) | KInt _ => Err TypeError end) d
  | _ => Err AttributeError
  end.
(** datastore.py 28-36, 72-91 read the five entries *)
Definition source_of (v : pyval) : result source :=
  do a <- get_str v "variable"; do b <- get_str v "unit"; do c <- get_str v "scenario"; do d <- get_str v "model"; do e <- get_str v "file";
  Ok {| s_variable := a; s_unit := b; s_scenario := c; s_model := d; s_file := e |}.
(** main.py 83-93 *)
Definition mapping_of (v : pyval) : result (string * string * string) :=
  do a <- get_str v "regionstype1"; do b <- get_str v "regionstype2"; do c <- get_str v "conversiontable"; Ok (a, b, c).
(** main.py 61-67 *)
Definition file_of (kv : string * pyval) : result (string * (string * string)) :=
  do f <- get_str (snd kv) "filename"; do t <- get_str (snd kv) "regionstype"; Ok (fst kv, (f, t)).
Definition as_list (v : pyval) : result (list pyval) := match v with VList l => Ok l | _ => Err TypeError end.

(** mimosa.py 71-75 *)
Definition choices_of (params : pyval) : result choices :=
  do a <- config params ["model"; "damage module"];
  do b <- config params ["model"; "emissiontrade module"];
  do c <- config params ["model"; "financialtransfer module"];
  do d <- config params ["model"; "welfare module"];
  do e <- config params ["model"; "objective module"];
  Ok {| c_damage := a; c_trade := b; c_transfer := c; c_welfare := d; c_objective := e |}.

Section Construct.
  Variable o : oracles.
  Variable disk : string -> result table.                        (* pd.read_csv *)
  Variable merge_order : list (pyval * list pyval) -> list (pyval * list pyval).
  Variable unit_factor : string -> string -> result R.           (* pint, arrays *)
  Variable spline : list R -> list R -> result (R -> R).         (* scipy *)

  (** main.py 52-68 *)
  Definition param_store (params : pyval) : result store :=
    do out <- config params ["regionstype"];
    do out <- (match out with VStr s => Ok s | _ => Err KeyError end);
    do ms <- config params ["regionsmappings"];
    do ms <- as_list ms;
    do ms <- map_result mapping_of ms;
    do fs <- config params ["regional_parameter_files"];
    do fs <- items fs;
    do fs <- map_result file_of fs;
    new_store disk params ms out fs.
  Definition store_args_of (params : pyval) (regions : list string) : result store_args :=
    do s <- config params ["time"; "start"]; do s <- year_number s;
    do e <- config params ["time"; "end"]; do e <- year_number e;
    do d <- config params ["time"; "dt"]; do d <- year_number d;
    do vs <- config params ["input"; "variables"];
    do vs <- items vs;
    do vs <- map_result (fun kv => do x <- source_of (snd kv); Ok (fst kv, x)) vs;
    Ok {| a_start := s; a_end := e; a_dt := d; a_regions := regions; a_variables := vs |}.

  (** mimosa.py 51-113 without create_instance of pyomo; [c] are the process-wide caches.
      The abstract model is created (54) before the instance data (57). *)
  Record instance := { i_params : pyval; i_tree : ptree; i_regions : list string; i_args : store_args;
                       i_store : store; i_series : list (string * list (string * list R)); i_data : list (string * pdata) }.
  Definition construct (c : caches) (user : pyval) : result instance :=
    do pt <- check_params o config_default user;
    do params <- parse_param_values (fst pt);
    do rs <- config params ["regions"];
    do rs <- items rs;
    let regions := map fst rs in
    do ch <- choices_of params;
    do decls <- model_params ch;
    do st <- param_store params;
    do a <- store_args_of params regions;
    do values <- snd (data_store disk unit_factor spline a c);
    do start <- config params ["time"; "start"];
    do dt <- config params ["time"; "dt"];
    do data <- instance_data o (snd pt) params
                 (fun cat name => RegionalParams.get merge_order st cat name regions)
                 (fun y r v => interp_data a values y r v)
                 (a_start a) (a_dt a) (num_years (a_start a) (a_end a) (a_dt a)) regions decls start dt;
    Ok {| i_params := params; i_tree := snd pt; i_regions := regions; i_args := a; i_store := st; i_series := values; i_data := data |}.
End Construct.
