(** Property theorems (generated by tools/gen_props.py from the proved lemmas; statements only). *)
From Verif Require Import PyBase NestedDict Config ConfigSpec TimeGrid DataStore DataStoreLemmas RegionalParams RegionalParamsLemmas Instantiate Model ModelSpec Build BuildLemmas SimMode Export SimData SimDataLemmas.
From Coq Require Import QArith Qreals Reals.
Import ListNotations.
Open Scope string_scope.
Open Scope R_scope.

(** A number given for a region and a model year is imposed up to 0.001. *)
Theorem C59_given_values_imposed : forall disk spline params s extra n m p active v x given label column r value w t,
  through_points spline -> sim_of disk spline params = Ok (Some s) -> no_number_deactivated params ->
  create_instance p extra n m (Some s) = Ok active -> solution_of p active v ->
  lookup params ["simulation"; "constraint_variables"; rname x] = Some (VDict given) ->
  In (label, VDict column) given -> dget column (KStr r) = Some value -> says_number value w ->
  model_step p t -> In r (regions p) -> says_year label (year p t) ->
  w - 1/1000 <= rval v x t r <= w + 1/1000.
Proof. exact C59_given_values_imposed_pf. Qed.
Print Assumptions C59_given_values_imposed.

Theorem C59_given_global_values_imposed : forall disk spline params s extra n m p active v g given label column value w t,
  through_points spline -> sim_of disk spline params = Ok (Some s) -> no_number_deactivated params ->
  create_instance p extra n m (Some s) = Ok active -> solution_of p active v ->
  lookup params ["simulation"; "constraint_variables"; gname g] = Some (VDict given) ->
  In (label, VDict column) given -> dget column (KStr "Global") = Some value -> says_number value w ->
  model_step p t -> says_year label (year p t) ->
  w - 1/1000 <= gval v g t <= w + 1/1000.
Proof. exact C59_given_global_values_imposed_pf. Qed.
Print Assumptions C59_given_global_values_imposed.

Theorem C59_file_values_imposed : forall disk spline params s extra n m p active v x path tab row label r value w t,
  through_points spline -> sim_of disk spline params = Ok (Some s) -> no_number_deactivated params ->
  create_instance p extra n m (Some s) = Ok active -> solution_of p active v ->
  lookup params ["simulation"; "constraint_variables"; rname x] = Some (VStr path) -> disk path = Ok tab -> rectangular tab ->
  only_row tab (rname x) r row -> cell tab row label = Ok value -> says_number value w ->
  model_step p t -> In r (regions p) -> says_year (KStr label) (year p t) ->
  w - 1/1000 <= rval v x t r <= w + 1/1000.
Proof. exact C59_file_values_imposed_pf. Qed.
Print Assumptions C59_file_values_imposed.

Theorem C59_file_global_values_imposed : forall disk spline params s extra n m p active v g path tab row label value w t,
  through_points spline -> sim_of disk spline params = Ok (Some s) -> no_number_deactivated params ->
  create_instance p extra n m (Some s) = Ok active -> solution_of p active v ->
  lookup params ["simulation"; "constraint_variables"; gname g] = Some (VStr path) -> disk path = Ok tab -> rectangular tab ->
  only_row tab (gname g) "Global" row -> cell tab row label = Ok value -> says_number value w ->
  model_step p t -> says_year (KStr label) (year p t) ->
  w - 1/1000 <= gval v g t <= w + 1/1000.
Proof. exact C59_file_global_values_imposed_pf. Qed.
Print Assumptions C59_file_global_values_imposed.

(** A feasible point satisfies the model of a simulation run that imposes variables from the point's own saved file, if
    their values are below 1000 (so that six printed digits are precise enough). *)
Theorem C59_saved_run_reproduced : forall disk spline params s extra n m p active v unit_of rnd sixg imposed,
  through_points spline -> (forall y, Rabs (IZR (rnd y) - y) <= 1/2) -> (forall a, Rabs a < 1000 -> Rabs (Q2R (sixg a) - a) <= 1/2000) ->
  two_decimals p -> 5/10 <= dt p -> NoDup (regions p) ->
  sim_of disk spline params = Ok (Some s) -> create_instance p extra n m (Some s) = Ok active ->
  lookup params ["simulation"; "constraint_variables"] = Some (VDict imposed) ->
  (forall k w, In (k, w) imposed -> exists path, w = VStr path /\ disk path = Ok (saved_table p unit_of rnd sixg v)) ->
  (forall x t r, In (KStr (rname x)) (map fst imposed) -> model_step p t -> In r (regions p) -> Rabs (rval v x t r) < 1000) ->
  (forall g t, In (KStr (gname g)) (map fst imposed) -> model_step p t -> Rabs (gval v g t) < 1000) ->
  feasible p v -> solution_of p active v.
Proof. exact C59_saved_run_reproduced_pf. Qed.
Print Assumptions C59_saved_run_reproduced.

(** With larger values this fails: if a saved value (six digits) is more than 0.001 off, the point is infeasible for the
    simulation run that imposes its own file. *)
Theorem C59_rounded_file_refuted : forall disk spline params s extra n m p active v unit_of rnd sixg x path t r,
  through_points spline -> (forall y, Rabs (IZR (rnd y) - y) <= 1/2) -> two_decimals p -> 5/10 <= dt p -> NoDup (regions p) ->
  sim_of disk spline params = Ok (Some s) -> no_number_deactivated params -> create_instance p extra n m (Some s) = Ok active ->
  lookup params ["simulation"; "constraint_variables"; rname x] = Some (VStr path) -> disk path = Ok (saved_table p unit_of rnd sixg v) ->
  model_step p t -> In r (regions p) -> Rabs (Q2R (sixg (rval v x t r)) - rval v x t r) > 1/1000 ->
  ~ solution_of p active v.
Proof. exact C59_rounded_file_refuted_pf. Qed.
Print Assumptions C59_rounded_file_refuted.

(** Without simulation mode the imposed variables and deactivated constraints are ignored. *)
Theorem C59_mode_off : forall disk spline params, lookup params ["simulation"; "simulationmode"] = Some (VBool false) ->
  sim_of disk spline params = Ok None.
Proof. exact C59_mode_off_pf. Qed.
Print Assumptions C59_mode_off.

(** A simulation run that imposes declared variables from a saved file can be built. *)
Theorem C59_saved_file_accepted : forall disk spline params extra n p v unit_of rnd sixg imposed,
  spline_defined spline -> (forall y, Rabs (IZR (rnd y) - y) <= 1/2) -> two_decimals p -> 5/10 <= dt p -> (3 <= tf p)%nat ->
  numeric_ranges p -> sound_data p -> usable_choices p ->
  lookup params ["simulation"; "simulationmode"] = Some (VBool true) ->
  lookup params ["simulation"; "constraint_variables"] = Some (VDict imposed) ->
  lookup params ["simulation"; "deactivated_constraints"] = Some (VList []) ->
  (forall k w, In (k, w) imposed -> exists path, w = VStr path /\ disk path = Ok (saved_table p unit_of rnd sixg v)) ->
  (forall k, In k (map fst imposed) -> (exists x, k = KStr (rname x) /\ declared_r p x = true) \/ (exists g, k = KStr (gname g) /\ declared_g p g = true)) ->
  exists s m0, sim_of disk spline params = Ok (Some s) /\
    forall m, (m0 <= m)%nat -> exists active, create_instance p extra n m (Some s) = Ok active.
Proof. exact C59_saved_file_accepted_pf. Qed.
Print Assumptions C59_saved_file_accepted.
