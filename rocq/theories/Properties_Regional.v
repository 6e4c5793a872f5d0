(** Property theorems (generated by tools/gen_props.py from the proved lemmas; statements only). *)
From Verif Require Import PyBase NestedDict Config ConfigSpec DataStore RegionalParams RegionalParamsLemmas.
From Coq Require Import Permutation.
Import ListNotations.
Open Scope string_scope.
Open Scope list_scope.

(** A value in the regions section is used as it is; without one, the file's value (or error) is used,
    whatever else the configuration says. *)
Theorem C15_override_wins : forall mo st category paramname region v,
  override (st_params st) region category paramname = Some v ->
  getregional mo st category paramname region = Ok v.
Proof. exact C15_override_wins_pf. Qed.
Print Assumptions C15_override_wins.

Theorem C15_otherwise_file_value : forall mo st category paramname region,
  override (st_params st) region category paramname = None ->
  getregional mo st category paramname region = file_value mo (st_categories st) category paramname region.
Proof. exact C15_otherwise_file_value_pf. Qed.
Print Assumptions C15_otherwise_file_value.

(** Adding an override for one region and parameter changes nothing for any other. *)
Theorem C15_override_is_local : forall mo params params' cs region category paramname x,
  set_nested params (map KStr ["regions"; region; category; paramname]) x = Ok params' ->
  let st := {| st_params := params; st_categories := cs |} in
  let st' := {| st_params := params'; st_categories := cs |} in
  getregional mo st' category paramname region = Ok x /\
  forall region' category' paramname', (region', category', paramname') <> (region, category, paramname) ->
    getregional mo st' category' paramname' region' = getregional mo st category' paramname' region'.
Proof. exact C15_override_is_local_pf. Qed.
Print Assumptions C15_override_is_local.

(** The store gives every region of the model its value. *)
Theorem C15_every_region : forall mo st category paramname regions l, get mo st category paramname regions = Ok l ->
  map fst l = regions /\ forall r v, In (r, v) l -> getregional mo st category paramname r = Ok v.
Proof. exact C15_every_region_pf. Qed.
Print Assumptions C15_every_region.

(** A file value is a number, or a text that does not read as one. *)
Theorem C15_file_values_are_numbers : forall mo cs category paramname region x, file_value mo cs category paramname region = Ok x ->
  (exists f, x = VFloat f) \/ (exists s, x = VStr s /\ py_float x = Err ValueError).
Proof. exact C15_file_values_are_numbers_pf. Qed.
Print Assumptions C15_file_values_are_numbers.

(** A numeric parameter: a model region gets the mean of the file's values over the file regions it is mapped to. *)
Theorem C16_mean_of_sources : forall mo data pairs paramname region,
  (forall l, Permutation l (mo l)) -> rectangular data -> has_column data "region" = true ->
  has_column data paramname = true -> paramname <> "region" ->
  (forall row v, In row (t_rows data) -> cell data row paramname = Ok v -> is_number v = true) ->
  flat_map q_of (contributions data pairs region paramname) <> [] ->
  exists q, container_get mo (Mapped data pairs) paramname region = Ok (VFloat (FFin q)) /\
    (q == average (flat_map q_of (contributions data pairs region paramname)))%Q.
Proof. exact C16_mean_of_sources_pf. Qed.
Print Assumptions C16_mean_of_sources.

(** In particular a region mapped to one file region gets that region's number. *)
Theorem C16_single_source : forall mo data pairs paramname region a x,
  (forall l, Permutation l (mo l)) -> rectangular data -> has_column data "region" = true ->
  has_column data paramname = true -> paramname <> "region" ->
  (forall row v, In row (t_rows data) -> cell data row paramname = Ok v -> is_number v = true) ->
  sources pairs region = [a] -> entries data a paramname = [VFloat (FFin x)] ->
  exists q, container_get mo (Mapped data pairs) paramname region = Ok (VFloat (FFin q)) /\ (q == x)%Q.
Proof. exact C16_single_source_pf. Qed.
Print Assumptions C16_single_source.

(** A mapped region without any number in the file silently gets nan. *)
Theorem C16_no_data_is_nan : forall mo data pairs paramname region,
  (forall l, Permutation l (mo l)) -> rectangular data -> has_column data "region" = true ->
  has_column data paramname = true -> paramname <> "region" ->
  (forall row v, In row (t_rows data) -> cell data row paramname = Ok v -> is_number v = true) ->
  sources pairs region <> [] -> flat_map q_of (contributions data pairs region paramname) = [] ->
  container_get mo (Mapped data pairs) paramname region = Ok (VFloat FNaN).
Proof. exact C16_no_data_is_nan_pf. Qed.
Print Assumptions C16_no_data_is_nan.

(** A region the mapping does not mention is a KeyError. *)
Theorem C16_unmapped_region : forall mo data pairs paramname region, (forall l, Permutation l (mo l)) ->
  sources pairs region = [] -> container_get mo (Mapped data pairs) paramname region = Err KeyError.
Proof. exact C16_unmapped_region_pf. Qed.
Print Assumptions C16_unmapped_region.

(** A text parameter gets the text of one of its file regions (a non-empty one, if there is any). *)
Theorem C16_text_from_a_source : forall mo data pairs paramname region v,
  (forall l, Permutation l (mo l)) -> rectangular data -> has_column data "region" = true ->
  paramname <> "region" -> locate mo (Mapped data pairs) paramname region = Ok v ->
  (exists row w, In row (t_rows data) /\ cell data row paramname = Ok w /\ is_number w = false) ->
  (v = VFloat FNaN /\ forall w, In w (contributions data pairs region paramname) -> w = VFloat FNaN) \/
  In v (contributions data pairs region paramname).
Proof. exact C16_text_from_a_source_pf. Qed.
Print Assumptions C16_text_from_a_source.

(** A file in the model's own region definition: the one row of that region. *)
Theorem C16_same_regions : forall mo data paramname region x,
  rectangular data -> has_column data "region" = true -> has_column data paramname = true -> paramname <> "region" ->
  entries data (VStr region) paramname = [VFloat x] ->
  container_get mo (Direct data) paramname region = Ok (VFloat x).
Proof. exact C16_same_regions_pf. Qed.
Print Assumptions C16_same_regions.

(** No conversion table between the file's region definition and the model's: KeyError when the store is created. *)
Theorem C16_missing_mapping : forall disk file type_in type_out ms data, disk file = Ok data -> type_in <> type_out ->
  (forall m, ~ In ((type_in, type_out), m) ms) -> new_container disk file type_in type_out ms = Err KeyError.
Proof. exact C16_missing_mapping_pf. Qed.
Print Assumptions C16_missing_mapping.

(** A region without an own value gets the average of the file's numbers over the file regions its conversion table lists. *)
Theorem C16_configured_mean : forall disk mo params mappings type_out files st category file type_in data conversion paramname region numbers,
  (forall l, Permutation l (mo l)) -> new_store disk params mappings type_out files = Ok st ->
  NoDup (map fst files) -> In (category, (file, type_in)) files -> disk file = Ok data -> type_in <> type_out ->
  conversion_table disk mappings type_in type_out conversion ->
  override params region category paramname = None -> rectangular data -> has_column data paramname = true -> paramname <> "region" ->
  (forall row v, In row (t_rows data) -> cell data row paramname = Ok v -> is_number v = true) ->
  numbers = flat_map q_of (flat_map (fun a => entries data a paramname) (file_regions conversion type_in type_out region)) -> numbers <> [] ->
  exists q, getregional mo st category paramname region = Ok (VFloat (FFin q)) /\ (q == average numbers)%Q.
Proof. exact C16_configured_mean_pf. Qed.
Print Assumptions C16_configured_mean.

(** When file and model use the same regions, the file's number is used unchanged. *)
Theorem C16_configured_same_regions : forall disk mo params mappings regionstype files st category file data paramname region x,
  new_store disk params mappings regionstype files = Ok st ->
  NoDup (map fst files) -> In (category, (file, regionstype)) files -> disk file = Ok data ->
  override params region category paramname = None -> rectangular data -> has_column data paramname = true -> paramname <> "region" ->
  entries data (VStr region) paramname = [VFloat x] ->
  getregional mo st category paramname region = Ok (VFloat x).
Proof. exact C16_configured_same_regions_pf. Qed.
Print Assumptions C16_configured_same_regions.

(** Every parameter file whose region definition is the model's, or is connected to it by a conversion table
    (given in either direction), can be used. *)
Theorem C16_store_created : forall disk params mappings type_out files,
  (forall a b f, In (a, b, f) mappings -> exists t, disk f = Ok t /\ has_column t a = true /\ has_column t b = true /\ rectangular t) ->
  (forall category file type_in, In (category, (file, type_in)) files ->
     (exists data, disk file = Ok data /\ has_column data "region" = true) /\
     (type_in = type_out \/ exists f, In (type_in, type_out, f) mappings \/ In (type_out, type_in, f) mappings)) ->
  exists st, new_store disk params mappings type_out files = Ok st.
Proof. exact C16_store_created_pf. Qed.
Print Assumptions C16_store_created.

(** Without any row for the region: KeyError; with several rows: TypeError.  Neither goes unnoticed. *)
Theorem C16_configured_row_missing : forall disk mo params mappings regionstype files st category file data paramname region,
  new_store disk params mappings regionstype files = Ok st ->
  NoDup (map fst files) -> In (category, (file, regionstype)) files -> disk file = Ok data ->
  override params region category paramname = None -> rectangular data -> has_column data paramname = true ->
  (entries data (VStr region) paramname = [] -> getregional mo st category paramname region = Err KeyError) /\
  (forall x y l, paramname <> "region" -> entries data (VStr region) paramname = x :: y :: l -> getregional mo st category paramname region = Err TypeError).
Proof. exact C16_configured_row_missing_pf. Qed.
Print Assumptions C16_configured_row_missing.
