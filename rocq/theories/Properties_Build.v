(** Property theorems (generated by tools/gen_props.py from the proved lemmas; statements only). *)
From Verif Require Import Model ModelSpec Build VarFacts EconLemmas BuildLemmas DefinedFacts.

Theorem C19_declared_variables_in_range : forall p c nc o, In c (all_constraints p) ->
  In nc (to_pyomo c) -> In o (outputs (tf p) (regions p) (snd nc)) ->
  rvars (fun g t => declared_g p g = true /\ (t <= tf p)%nat)
        (fun x t r => declared_r p x = true /\ (t <= tf p)%nat /\ In r (regions p)) o.
Proof. exact C19_declared_variables_in_range_pf. Qed.
Print Assumptions C19_declared_variables_in_range.

Theorem C17_no_constraint_replaced : forall extra n p comps,
  create_abstract_model extra n p = Ok comps ->
  NoDup (map fst comps) /\
  Forall2 (fun added wanted => snd added = snd wanted /\
             match fst wanted with Some s => fst added = ("constraint_" ++ s)%string | None => True end)
          comps (flat_map to_pyomo (all_constraints p)).
Proof. exact C17_no_constraint_replaced_pf. Qed.
Print Assumptions C17_no_constraint_replaced.

Theorem C17_names_never_clash : forall extra n p, trade p <> globalcostpool ->
  exists comps, create_abstract_model extra n p = Ok comps.
Proof. exact C17_names_never_clash_pf. Qed.
Print Assumptions C17_names_never_clash.

Theorem C17_globalcostpool_clashes_refuted : forall extra n p, trade p = globalcostpool ->
  create_abstract_model extra n p = Err RuntimeError.
Proof. exact C17_globalcostpool_clashes_refuted_pf. Qed.
Print Assumptions C17_globalcostpool_clashes_refuted.

(** A configuration with numbers in range builds exactly when the listed choices are made. *)
Theorem C18_builds_iff_usable : forall extra n p, numeric_ranges p -> sound_data p ->
  ((exists comps, build extra n p = Ok comps) <-> usable_choices p).
Proof. exact C18_builds_iff_usable_pf. Qed.
Print Assumptions C18_builds_iff_usable.

(** Data with a zero where the code divides by it never builds: every step and every region is covered. *)
Theorem C18_zero_data_rejected : forall extra n p comps, build extra n p = Ok comps ->
  Rsum (baseline_emissions p 0) (regions p) <> 0 /\
  forall t, model_step p t -> Rsum (population p t) (regions p) <> 0 /\
    forall r, In r (regions p) -> baseline_GDP p t r <> 0 /\
      calc_GDP_num 1 (population p t r) (TFP_capital p t r) (alpha p) <> 0.
Proof. exact C18_zero_data_rejected_pf. Qed.
Print Assumptions C18_zero_data_rejected.

(** Accepted choices that never build a model. *)
Theorem C18_globalcostpool_refuted : forall extra n p, trade p = globalcostpool ->
  build extra n p = Err RuntimeError.
Proof. exact C18_globalcostpool_refuted_pf. Qed.
Print Assumptions C18_globalcostpool_refuted.

(** Whatever values the solver tries (within the bounds, gross GDP positive), no equation divides by zero
    or takes a power of a non-positive number. *)
Theorem C31_all_operations_defined : forall p v c nc o, numeric_ranges p -> sound_data p -> usable_choices p ->
  slr_logistic_ok p -> sensible_point p v ->
  In c (all_constraints p) -> In nc (to_pyomo c) -> In o (outputs (tf p) (regions p) (snd nc)) -> all_defined v o.
Proof. exact C31_all_operations_defined_pf. Qed.
Print Assumptions C31_all_operations_defined.
