(** Property theorems (generated by tools/gen_props.py from the proved lemmas; statements only). *)
From Verif Require Import Model ModelSpec Build BuildLemmas VarFacts SimMode SimModeLemmas.

(** ** Theorems *)
Theorem C47_fixed_regional_variable : forall extra n m p s active v x data t r,
  create_instance p extra n m (Some s) = Ok active -> solution_of p active v ->
  In (rname x, data) (sim_fixed s) -> (forall k, ~ In (str_nat k) (sim_deactivated s)) ->
  model_step p t -> In r (regions p) ->
  exists target, data r = Some target /\ target (year p t) - 1/1000 <= rval v x t r <= target (year p t) + 1/1000.
Proof. exact C47_fixed_regional_variable_pf. Qed.
Print Assumptions C47_fixed_regional_variable.

Theorem C47_fixed_global_variable : forall extra n m p s active v g data t,
  create_instance p extra n m (Some s) = Ok active -> solution_of p active v ->
  In (gname g, data) (sim_fixed s) -> (forall k, ~ In (str_nat k) (sim_deactivated s)) ->
  model_step p t ->
  exists target, data "Global"%string = Some target /\ target (year p t) - 1/1000 <= gval v g t <= target (year p t) + 1/1000.
Proof. exact C47_fixed_global_variable_pf. Qed.
Print Assumptions C47_fixed_global_variable.

(** The active constraints are the model's own and the added ones, minus the deactivated names. *)
Theorem C47_deactivation_exact : forall extra n m p s active,
  create_instance p extra n m (Some s) = Ok active ->
  exists model added, build extra n p = Ok model /\
    (forall nc, In nc added -> exists k, fst nc = ("constraint_" ++ str_nat k)%string) /\
    (forall d, In d (sim_deactivated s) -> In ("constraint_" ++ d)%string (map fst (model ++ added)%list)) /\
    (forall nc, In nc active <->
       In nc (model ++ added)%list /\ forall d, In d (sim_deactivated s) -> fst nc <> ("constraint_" ++ d)%string) /\
    (forall nc, In nc model -> (forall d, In d (sim_deactivated s) -> fst nc <> ("constraint_" ++ d)%string) ->
       forall v, solution_of p active v -> con_holds (tf p) (regions p) v (snd nc)).
Proof. exact C47_deactivation_exact_pf. Qed.
Print Assumptions C47_deactivation_exact.

(** A name that is no constraint of the model (and no added one) is an error, not a silent no-op. *)
Theorem C47_unknown_constraint_raises : forall extra n m p s d model,
  build extra n p = Ok model -> sim_fixed s = [] ->
  In d (sim_deactivated s) -> ~ In ("constraint_" ++ d)%string (map fst model) ->
  create_instance p extra n m (Some s) = Err AttributeError.
Proof. exact C47_unknown_constraint_raises_pf. Qed.
Print Assumptions C47_unknown_constraint_raises.

Theorem C47_unknown_variable_raises : forall extra n m p s name data,
  In (name, data) (sim_fixed s) -> (forall g, declared_g p g = true -> gname g <> name) ->
  (forall x, declared_r p x = true -> rname x <> name) ->
  exists e, create_instance p extra n m (Some s) = Err e.
Proof. exact C47_unknown_variable_raises_pf. Qed.
Print Assumptions C47_unknown_variable_raises.

(** Data that lacks a region of the model (or the row "Global") is an error. *)
Theorem C47_missing_region_raises : forall extra n m p s x data r,
  In (rname x, data) (sim_fixed s) -> In r (regions p) -> data r = None ->
  exists e, create_instance p extra n m (Some s) = Err e.
Proof. exact C47_missing_region_raises_pf. Qed.
Print Assumptions C47_missing_region_raises.

Theorem C47_solution_reproduced : forall extra n m p s active v,
  create_instance p extra n m (Some s) = Ok active -> feasible p v ->
  (forall name data t, In (name, data) (sim_fixed s) -> model_step p t ->
     (forall x r f, name = rname x -> In r (regions p) -> data r = Some f ->
        rval v x t r - 1/1000 <= f (year p t) <= rval v x t r + 1/1000) /\
     (forall g f, name = gname g -> data "Global"%string = Some f ->
        gval v g t - 1/1000 <= f (year p t) <= gval v g t + 1/1000)) ->
  solution_of p active v.
Proof. exact C47_solution_reproduced_pf. Qed.
Print Assumptions C47_solution_reproduced.

(** Without simulation mode the instance is the plain model, whose solutions are the feasible points. *)
Theorem C47_off_is_plain_model : forall extra n m p active v,
  create_instance p extra n m None = Ok active -> (solution_of p active v <-> feasible p v).
Proof. exact C47_off_is_plain_model_pf. Qed.
Print Assumptions C47_off_is_plain_model.

(** Simulation mode can always be switched on: declared variables, data for every region, known names. *)
Theorem C47_simulation_builds : forall extra n p s, numeric_ranges p -> sound_data p -> usable_choices p ->
  (forall name data, In (name, data) (sim_fixed s) ->
     (exists x, name = rname x /\ declared_r p x = true /\ forall r, In r (regions p) -> data r <> None) \/
     (exists g, name = gname g /\ declared_g p g = true /\ data "Global"%string <> None)) ->
  (forall d, In d (sim_deactivated s) -> exists c con, In c (all_constraints p) /\ In (Some d, con) (to_pyomo c)) ->
  exists m0, forall m, (m0 <= m)%nat -> exists active, create_instance p extra n m (Some s) = Ok active.
Proof. exact C47_simulation_builds_pf. Qed.
Print Assumptions C47_simulation_builds.
