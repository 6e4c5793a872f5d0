(** Property theorems (generated by tools/gen_props.py from the proved lemmas; statements only). *)
From Verif Require Import PyBase NestedDict Parsers Config ConfigDefault ConfigSpec
  ConfigLemmas ConfigRefuted ConfigAccept ConfigValues ConfigText UnitsLemmas.

Theorem C01_params_exact : forall o template user out tree,
  distinct_keys template -> all_keys string_key template ->
  check_params o template user = Ok (out, tree) ->
  (forall p node, param_at template p node ->
     exists pr v, create_parser node = Ok pr /\ lookup out p = Some v /\
       parse o pr (match lookup user p with Some raw => raw | None => default_of node end) = Ok v) /\
  (forall p v, p <> [] -> lookup out p = Some v ->
     exists q node, param_at template q node /\ (prefix_of p q \/ prefix_of q p)).
Proof. exact C01_params_exact_pf. Qed.
Print Assumptions C01_params_exact.

Theorem C02_unknown_key_rejected : forall o template user p v,
  distinct_keys template -> distinct_keys user -> all_keys plain_key template ->
  Forall plain p -> lookup user p = Some v -> is_dict v = false ->
  (forall q node, param_at template q node ->
     p <> q /\ ~ (prefix_of q p /\ (has_type node "dict" \/ has_type node "datasource"))) ->
  forall st, check_params o template user <> Ok st.
Proof. exact C02_unknown_key_rejected_pf. Qed.
Print Assumptions C02_unknown_key_rejected.

Theorem C03_bounds : forall o template user out tree p node lo hi,
  distinct_keys template -> check_params o template user = Ok (out, tree) ->
  param_at template p node -> has_type node "float" \/ has_type node "int" ->
  lower_bound node lo -> upper_bound node hi ->
  exists v, lookup out p = Some v /\
    ((v = VBool false /\ may_be_false node) \/
     v = VFloat FNaN \/
     exists x, numeric v x /\ num_le lo x /\ num_le x hi).
Proof. exact C03_bounds_pf. Qed.
Print Assumptions C03_bounds.

Theorem C04_enum_listed : forall o template user out tree p node l,
  distinct_keys template -> check_params o template user = Ok (out, tree) ->
  param_at template p node -> has_type node "enum" -> entry node "values" = Some (VList l) ->
  exists v, lookup out p = Some v /\
    ((v = VBool false /\ may_be_false node) \/
     exists w, In w l /\ py_eqb v w = true /\ (forall s, w = VStr s -> v = w)).
Proof. exact C04_enum_listed_pf. Qed.
Print Assumptions C04_enum_listed.

Theorem C05_false_normalised : forall o template user out tree p node,
  distinct_keys template -> check_params o template user = Ok (out, tree) ->
  param_at template p node ->
  let raw := match lookup user p with Some r => r | None => default_of node end in
  (* a falsy value of a can_be_false parameter is stored as False *)
  (may_be_false node -> falsy_value raw -> lookup out p = Some (VBool false)) /\
  (* anything stored as False was given as a falsy value *)
  (lookup out p = Some (VBool false) -> falsy_value raw) /\
  (* numbers, strings, lists and dictionaries that are not can_be_false are never False *)
  (~ may_be_false node ->
   ~ (has_type node "bool" \/ has_type node "enum" \/ has_type node "quantity") ->
   lookup out p <> Some (VBool false)).
Proof. exact C05_false_normalised_pf. Qed.
Print Assumptions C05_false_normalised.

Theorem C06_revalidation_idempotent : forall o user out tree,
  check_params o config_default user = Ok (out, tree) ->
  (forall p node q, param_at config_default p node -> has_type node "float" -> may_be_false node ->
     lookup out p = Some (VFloat (FFin q)) -> ~ (q == 0)%Q) ->
  check_params o config_default out = Ok (out, tree).
Proof. exact C06_revalidation_idempotent_pf. Qed.
Print Assumptions C06_revalidation_idempotent.

Theorem C07_no_reference_unchanged : forall params params' q n,
  distinct_keys params -> parse_param_values params = Ok params' ->
  q <> [] -> lookup params q = Some n -> is_dict n = false ->
  (forall s, n = VStr s -> no_brace s) ->
  lookup params' q = Some n.
Proof. exact C07_no_reference_unchanged_pf. Qed.
Print Assumptions C07_no_reference_unchanged.

Theorem C07_reference_resolved : forall params params' q pre post target other,
  distinct_keys params -> parse_param_values params = Ok params' ->
  q <> [] -> target <> [] -> Forall plain target ->
  no_brace pre -> no_brace post -> ref_name (str_join " - " target) -> no_brace other ->
  lookup params q = Some (VStr (with_ref pre (str_join " - " target) post)) ->
  lookup params target = Some (VStr other) ->
  lookup params' q = Some (VStr (pre ++ other ++ post)).
Proof. exact C07_reference_resolved_pf. Qed.
Print Assumptions C07_reference_resolved.

(** ** Dictionary laws *)
Theorem C08_set_then_get : forall v p x v', set_nested v (map KStr p) x = Ok v' ->
  lookup v' p = Some x /\
  (forall q, ~ prefix_of q p -> ~ prefix_of p q -> lookup v' q = lookup v q) /\
  (forall y, set_nested v' (map KStr p) y = set_nested v (map KStr p) y).
Proof. exact C08_set_then_get_pf. Qed.
Print Assumptions C08_set_then_get.

Theorem C08_set_same : forall v p x, p <> [] -> lookup v p = Some x -> set_nested v (map KStr p) x = Ok v.
Proof. exact C08_set_same_pf. Qed.
Print Assumptions C08_set_same.

Theorem C08_set_succeeds : forall v p x, p <> [] ->
  (forall q w, prefix_of q p -> q <> p -> lookup v q = Some w -> is_dict w = true) ->
  exists v', set_nested v (map KStr p) x = Ok v'.
Proof. exact C08_set_succeeds_pf. Qed.
Print Assumptions C08_set_succeeds.

Theorem C08_flatten : forall v, distinct_keys v -> all_keys plain_key v -> is_dict v = true ->
  exists fl, flatten default_leaf_criterium v = Ok fl /\
    forall p n, p <> [] -> Forall plain p ->
      (dget fl (KStr (str_join " - " p)) = Some n <-> (lookup v p = Some n /\ is_dict n = false)).
Proof. exact C08_flatten_pf. Qed.
Print Assumptions C08_flatten.

Theorem C09_no_placeholder : forall u p,
  In p ["currency_unit"; "emissionsrate_unit"; "emissions_unit"; "temperature_unit"; "population_unit"] ->
  str_contains p (parse_default_units u) = false.
Proof. exact C09_no_placeholder_pf. Qed.
Print Assumptions C09_no_placeholder.

Theorem C02_joined_name_ignored_refuted : exists user p v out tree,
    distinct_keys user /\ lookup user p = Some v /\ is_dict v = false /\
    (forall q node, param_at config_default q node -> ~ prefix_of q p) /\
    check_params ok_oracles config_default user = Ok (out, tree) /\
    lookup out ["emissions"; "carbonbudget"] <> Some v.
Proof. exact C02_joined_name_ignored_refuted_pf. Qed.
Print Assumptions C02_joined_name_ignored_refuted.

Theorem C03_nan_accepted_refuted : exists user out tree node lo hi,
    param_at config_default ["time"; "dt"] node /\ has_type node "float" /\
    lower_bound node (FFin lo) /\ upper_bound node (FFin hi) /\
    check_params ok_oracles config_default user = Ok (out, tree) /\
    lookup out ["time"; "dt"] = Some (VFloat FNaN).
Proof. exact C03_nan_accepted_refuted_pf. Qed.
Print Assumptions C03_nan_accepted_refuted.

Theorem C06_zero_string_refuted : exists user out tree,
    check_params ok_oracles config_default user = Ok (out, tree) /\
    lookup out ["emissions"; "inertia"; "regional"] = Some (VFloat (FFin 0)) /\
    exists out2 tree2, check_params ok_oracles config_default out = Ok (out2, tree2) /\
      lookup out2 ["emissions"; "inertia"; "regional"] = Some (VBool false).
Proof. exact C06_zero_string_refuted_pf. Qed.
Print Assumptions C06_zero_string_refuted.

(** with two references only the last one is resolved: the first stays in the string *)
Theorem C07_two_references_refuted : exists params params',
    distinct_keys params /\
    lookup params ["a"] = Some (VStr "x") /\ lookup params ["b"] = Some (VStr "y") /\
    lookup params ["c"] = Some (VStr "{a}-{b}") /\
    parse_param_values params = Ok params' /\
    lookup params' ["c"] = Some (VStr "{a}-y").
Proof. exact C07_two_references_refuted_pf. Qed.
Print Assumptions C07_two_references_refuted.

Theorem C07_unknown_reference_kept : forall params params' q pre post target,
  distinct_keys params -> parse_param_values params = Ok params' ->
  q <> [] -> target <> [] -> Forall plain target ->
  no_brace pre -> no_brace post -> ref_name (str_join " - " target) ->
  lookup params q = Some (VStr (with_ref pre (str_join " - " target) post)) ->
  lookup params target = None ->
  lookup params' q = Some (VStr (with_ref pre (str_join " - " target) post)).
Proof. exact C07_unknown_reference_kept_pf. Qed.
Print Assumptions C07_unknown_reference_kept.

(** Every dictionary whose entries are declared parameters and whose values (or, where absent, the declared
    default) pass the parser of their parameter is accepted. *)
Theorem C54_valid_accepted : forall o user,
  is_dict user = true -> distinct_keys user -> all_keys string_key user ->
  (forall p v, p <> [] -> lookup user p = Some v -> is_dict v = false ->
     exists q node, param_at config_default q node /\ (p = q \/ (prefix_of q p /\ container node))) ->
  (forall p node v, param_at config_default p node -> ~ container node -> lookup user p = Some v -> is_dict v = false) ->
  (forall p node pr, param_at config_default p node -> create_parser node = Ok pr ->
     exists v, parse o pr (match lookup user p with Some raw => raw | None => default_of node end) = Ok v) ->
  exists st, check_params o config_default user = Ok st.
Proof. exact C54_valid_accepted_pf. Qed.
Print Assumptions C54_valid_accepted.

(** A value the user gave at a declared parameter (not a falsy value of an optional limit, for which see C05). *)
Theorem C55_value_kept : forall o template user out tree p node raw v,
  distinct_keys template -> check_params o template user = Ok (out, tree) ->
  param_at template p node -> lookup user p = Some raw -> lookup out p = Some v ->
  ~ (may_be_false node /\ falsy_value raw) ->
  (* true/false *)
  (has_type node "bool" -> (v = VBool true /\ truthy_value raw) \/ (v = VBool false /\ falsy_value raw /\ ~ truthy_value raw)) /\
  (* whole numbers, also written as text; fractions are truncated towards zero *)
  (has_type node "int" ->
     (forall z, raw = VInt z -> v = VInt z) /\
     (forall s z, raw = VStr s -> int_text s z -> v = VInt z) /\
     (forall x, raw = VFloat (FFin x) -> exists z, v = VInt z /\ (0 <= x -> inject_Z z <= x < inject_Z (z + 1))%Q /\
        (x <= 0 -> inject_Z (z - 1) < x <= inject_Z z)%Q) /\
     (exists z, v = VInt z)) /\
  (* numbers, also written as text *)
  (has_type node "float" ->
     (forall z, raw = VInt z -> exists x, v = VFloat (FFin x) /\ (x == inject_Z z)%Q) /\
     (forall f, raw = VFloat f -> v = VFloat f) /\
     (forall s x, raw = VStr s -> float_text s x -> in_range x -> exists y, v = VFloat (FFin y) /\ (y == x)%Q) /\
     (exists f, v = VFloat f)) /\
  (* text *)
  (has_type node "str" \/ has_type node "filepath" -> (forall s, raw = VStr s -> v = VStr s) /\ (exists s, v = VStr s)) /\
  (* listed values and quantities are kept as given *)
  (has_type node "enum" \/ has_type node "quantity" -> v = raw) /\
  (* a list keeps its length *)
  (has_type node "list" -> (raw = VNone /\ v = VList []) \/
     exists l l', raw = VList l /\ v = VList l' /\ List.length l' = List.length l) /\
  (* a dictionary stays a dictionary *)
  (has_type node "dict" -> (raw = VNone /\ v = VDict []) \/ exists d d', raw = VDict d /\ v = VDict d') /\
  (has_type node "datasource" -> exists d d', raw = VDict d /\ v = VDict d' /\
     forall k, In k ["variable"; "unit"; "scenario"; "model"; "file"] -> exists x, lookup v [k] = Some x).
Proof. exact C55_value_kept_pf. Qed.
Print Assumptions C55_value_kept.

(** Text given for a number is only accepted when it is a number (blanks around it, a sign, underscores between digits, a point and an exponent
    are allowed), and the number stored is the one that is written. *)
Theorem C55_text_is_number : forall o template user out tree p node s v,
  distinct_keys template -> check_params o template user = Ok (out, tree) ->
  param_at template p node -> lookup user p = Some (VStr s) -> lookup out p = Some v ->
  ~ (may_be_false node /\ falsy_value (VStr s)) ->
  (has_type node "int" -> exists b neg r, written_in s b /\ signed b neg r /\ digit_text (without_underscores r) /\
     v = VInt (if neg then - digits_value (without_underscores r) 0 else digits_value (without_underscores r) 0)%Z) /\
  (has_type node "float" -> exists b neg r f, written_in s b /\ signed b neg r /\ v = VFloat f /\
     ((word_text r "inf" \/ word_text r "infinity") /\ f = (if neg then FNegInf else FInf) \/
      word_text r "nan" /\ f = FNaN \/
      exists x, number_text (without_underscores r) x /\ stored_float neg x f)).
Proof. exact C55_text_is_number_pf. Qed.
Print Assumptions C55_text_is_number.

(** True and false given for a number are 1 and 0; given for a text they are written out, like whole numbers. *)
Theorem C55_other_kinds : forall o template user out tree p node raw v,
  distinct_keys template -> check_params o template user = Ok (out, tree) ->
  param_at template p node -> lookup user p = Some raw -> lookup out p = Some v ->
  ~ (may_be_false node /\ falsy_value raw) ->
  (forall b : bool, raw = VBool b ->
     (has_type node "int" -> v = VInt (if b then 1 else 0)) /\
     (has_type node "float" -> exists x, v = VFloat (FFin x) /\ (x == if b then 1 else 0)%Q) /\
     (has_type node "str" \/ has_type node "filepath" \/ has_type node "str_or_plain_dict" -> v = VStr (if b then "True" else "False"))) /\
  (forall z, raw = VInt z -> has_type node "str" \/ has_type node "filepath" \/ has_type node "str_or_plain_dict" -> exists s, v = VStr s /\ int_text s z) /\
  (forall s, raw = VStr s -> has_type node "str_or_plain_dict" -> v = raw) /\
  (forall d, raw = VDict d -> has_type node "str_or_plain_dict" -> v = raw) /\
  (* everything else is no number *)
  ((exists l, raw = VList l) \/ (exists d, raw = VDict d) \/ raw = VNone -> ~ has_type node "int" /\ ~ has_type node "float" /\ ~ has_type node "bool").
Proof. exact C55_other_kinds_pf. Qed.
Print Assumptions C55_other_kinds.

(** The default of a parameter with listed values is itself one of these values. *)
Theorem C04_enum_default_listed : forall o template user st p node, distinct_keys template -> check_params o template user = Ok st ->
  param_at template p node -> has_type node "enum" ->
  exists l w, entry node "values" = Some (VList l) /\ In w l /\ py_eqb (default_of node) w = true.
Proof. exact C04_enum_default_listed_pf. Qed.
Print Assumptions C04_enum_default_listed.

(** Default units in a unit text stand for what default_units.yaml says, in brackets; everything else stays
    (except "year", which becomes "yr"). *)
Theorem C09_units_expanded : forall l, (forall s, In (Plain s) l -> no_underscore s) ->
  parse_default_units (written l) = str_replace (meant l) "year" "yr".
Proof. exact C09_units_expanded_pf. Qed.
Print Assumptions C09_units_expanded.

(** "US$" may be written for "USD" and "t CO2" for "tCO2", anywhere in a quantity and in its target unit. *)
Theorem C09_spellings : forall o a b unit can_be_false v,
  quant o (VStr (a ++ "US$" ++ b)) unit can_be_false = quant o (VStr (a ++ "USD" ++ b)) unit can_be_false /\
  quant o (VStr (a ++ "t CO2" ++ b)) unit can_be_false = quant o (VStr (a ++ "tCO2" ++ b)) unit can_be_false /\
  quant o v (VStr (a ++ "US$" ++ b)) can_be_false = quant o v (VStr (a ++ "USD" ++ b)) can_be_false /\
  quant o v (VStr (a ++ "t CO2" ++ b)) can_be_false = quant o v (VStr (a ++ "tCO2" ++ b)) can_be_false.
Proof. exact C09_spellings_pf. Qed.
Print Assumptions C09_spellings.

(** A quantity is converted by pint to the expanded unit; other spellings aside, its text reaches pint unchanged. *)
Theorem C09_quantity_converted : forall o text l,
  (forall s, In (Plain s) l -> no_underscore s) -> str_contains "US$" text = false -> str_contains "t CO2" text = false ->
  str_contains "US$" (written l) = false -> str_contains "t CO2" (written l) = false -> str_contains "year" (meant l) = false ->
  quant o (VStr text) (VStr (written l)) true = (do q <- o_pint o text (meant l); Ok (Some q)).
Proof. exact C09_quantity_converted_pf. Qed.
Print Assumptions C09_quantity_converted.
