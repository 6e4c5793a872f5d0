(** Property theorems (generated by tools/gen_props.py from the proved lemmas; statements only). *)
From Verif Require Import PyBase NestedDict Parsers Config ConfigDefault ConfigSpec TimeGrid DataStore RegionalParams Instantiate InstFacts InstantiateLemmas Loading LoadingLemmas LoadingExist.
From Coq Require Import Reals.
Import ListNotations.
Open Scope string_scope.
Open Scope list_scope.
Open Scope R_scope.

(** Whatever the user writes: if a model is created (without custom_mapping), every number of its equations
    is the one at the documented place of the accepted configuration, quantities in the model's units. *)
Theorem C60_configuration_reaches_model : forall o disk mo uf sp c user inst p, distinct_keys user ->
  construct o disk mo uf sp c user = Ok inst -> (forall name, ~ customised (i_params inst) name) -> loads inst p ->
  configured o (i_params inst) p.
Proof. exact C60_configuration_reaches_model_pf. Qed.
Print Assumptions C60_configuration_reaches_model.

Theorem C60_inputs_reach_model : forall o disk mo uf sp c user inst p, distinct_keys user ->
  construct o disk mo uf sp c user = Ok inst -> (forall name, ~ customised (i_params inst) name) -> plain_columns o (i_params inst) ->
  loads inst p -> inputs_used o mo inst p.
Proof. exact C60_inputs_reach_model_pf. Qed.
Print Assumptions C60_inputs_reach_model.

(** Non-vacuity of the other C60 theorems: a constructed instance with a non-empty horizon, in which every number is a real number,
    always gives a model. *)
Theorem C60_loadable : forall o disk mo uf sp c user inst, distinct_keys user ->
  construct o disk mo uf sp c user = Ok inst -> (forall name, ~ customised (i_params inst) name) -> plain_columns o (i_params inst) ->
  real_numbers (i_params inst) -> rejects_false o -> a_start (i_args inst) <= a_end (i_args inst) -> 0 < a_dt (i_args inst) ->
  exists p, loads inst p.
Proof. exact C60_loadable_pf. Qed.
Print Assumptions C60_loadable.
