(** Simulation mode: mimosa/concrete_model/simulation_mode. *)
From Verif Require Export Names.

(** params["simulation"] when simulationmode is true.  The data of a fixed variable is its
    InterpolatingData object (simulation_mode/utils.py 30-60): [None] for a region that is not a row of
    the data, otherwise the interpolating function of the year.  Reading the files is not modelled. *)
Record sim_settings := {
  sim_fixed : list (string * (region -> option (R -> R)));
  sim_deactivated : list string }.

(** set_constraints.py 57 *)
Definition sim_eps : R := 1/1000.

Section SimMode.
  Variable p : pars.

  (** utils.py 56-60 (get) and set_constraints.py 77-91: value minus data compared with +-eps *)
  Definition fixed_rule (e : expr) (data : option (R -> R)) (y : R) (is_upper : bool) : rule_out :=
    match data with
    | None => Raise KeyError
    | Some f => if is_upper then (e - ENum (f y) <= ENum sim_eps)%E else (e - ENum (f y) >= ENum (- sim_eps))%E
    end.
  (** set_constraints.py 55-64, 74-111.  A name that is not a declared variable raises: AttributeError when
      there is no such attribute; other pyomo components and python attributes fail in one of several ways
      (a Param gives a constant True/False, which pyomo rejects), summarised here as [OtherError]. *)
  Definition fixed_data_constraint (entry : string * (region -> option (R -> R))) : result (list constr) :=
    let '(name, data) := entry in
    match find_var p name with
    | Some (Rv x) =>
        Ok [ RegionalC None (fun t r => fixed_rule (EV x t r) (data r) (year p t) true);
             RegionalC None (fun t r => fixed_rule (EV x t r) (data r) (year p t) false) ]
    | Some (Gv g) =>
        Ok [ GlobalC None (fun t => fixed_rule (EG g t) (data "Global"%string) (year p t) true);
             GlobalC None (fun t => fixed_rule (EG g t) (data "Global"%string) (year p t) false) ]
    | None => Err (OtherError "not a variable")
    end.
  (** set_constraints.py 16-29 *)
  Definition fixed_constraints (s : sim_settings) : result (list constr) :=
    do ls <- map_result fixed_data_constraint (sim_fixed s); Ok (List.concat ls).

  (** deactivate_constraints.py 7-12: getattr raises AttributeError for an unknown name; a deactivated
      constraint stays a component of the model. *)
  Definition is_component (comps : list (string * pyomo_con)) (s : string) : bool :=
    existsb (fun nc => String.eqb (fst nc) s) comps.
  Fixpoint deactivate (comps : list (string * pyomo_con)) (names : list string)
      (active : list (string * pyomo_con)) : result (list (string * pyomo_con)) :=
    match names with
    | [] => Ok active
    | d :: rest =>
        let s := ("constraint_" ++ d)%string in
        if is_component comps s
        then deactivate comps rest (filter (fun nc => negb (String.eqb (fst nc) s)) active)
        else Err AttributeError
    end.

  (** main.py 22-27 applied to the concrete model with components [comps]; [n] is its number of
      components.  The rules of the added constraints are evaluated when they are added. *)
  Definition set_simulation_mode (extra : pyomo_con -> nat) (n : nat) (comps : list (string * pyomo_con))
      (s : sim_settings) : result (list (string * pyomo_con)) :=
    do cs <- fixed_constraints s;
    do added <- add_all extra n (map fst comps) (flat_map to_pyomo cs);
    do _ <- check_all (flat_map (fun nc => outputs (tf p) (regions p) (snd nc)) added);
    deactivate (comps ++ added)%list (sim_deactivated s) (comps ++ added)%list.

  (** mimosa.py 101-111: the concrete model, given the settings when simulation mode is on *)
  Definition create_instance (extra : pyomo_con -> nat) (n m : nat) (sim : option sim_settings) :
      result (list (string * pyomo_con)) :=
    do comps <- build extra n p;
    match sim with None => Ok comps | Some s => set_simulation_mode extra m comps s end.

  (** A point that satisfies the active constraints of a concrete model and the bounds. *)
  Definition solution_of (active : list (string * pyomo_con)) (v : point) : Prop :=
    (forall nc, In nc active -> con_holds (tf p) (regions p) v (snd nc)) /\ var_bounds p v.
End SimMode.
