(** Building the pyomo model: declared variables, component names, evaluation of the rules. *)
From Coq Require Import DecimalString.
From Verif Require Export Model.

(** ** Variables declared ([m.x = Var(...)]) by the selected modules.
    emissions.py 162-184, 264, 355; sealevelrise.py 103-122; coacch.py 46-94, 149, 232; nodamage.py 27;
    mitigation.py 196-283, 373-390; emissiontrade.py 58-84; globalcostpool.py 40-72;
    globaldamagepool.py 51-52; effortsharing.py 59; cobbdouglas.py 93-118; welfare modules (utility,
    yearly_welfare); objective modules (NPV). *)
Definition declared_g (p : pars) (g : gvar) : bool :=
  match g with
  | g_global_carbonprice => match trade p with emissiontrade => true | _ => false end
  | _ => true
  end.
Definition declared_r (p : pars) (x : rvar) : bool :=
  match x with
  | v_damage_costs_non_slr | v_damage_costs_slr | v_mortality_oldest | v_mortality_older
  | v_mortality_young | v_mortality_cost_oldest =>
      match dmg_module p with COACCH => true | nodamage => false end
  | v_import_export_emission_reduction_balance | v_import_export_mitigation_cost_balance
  | v_paid_for_emission_reductions => match trade p with notrade => false | _ => true end
  | v_regional_emission_allowances => match trade p with emissiontrade => true | _ => false end
  | v_financial_transfer | v_rel_financial_transfer =>
      match transfer p with globaldamagepool => true | notransfer => false end
  | _ => true
  end.

(** Every variable occurrence of an expression satisfies P (global) or Q (regional). *)
Fixpoint evars (P : gvar -> nat -> Prop) (Q : rvar -> nat -> region -> Prop) (e : expr) : Prop :=
  match e with
  | ENum _ => True
  | EG g t => P g t
  | EV x t r => Q x t r
  | EAdd a b | ESub a b | EMul a b | EDiv a b | EPow a b => evars P Q a /\ evars P Q b
  | ENeg a | EPowN a _ | EExp a | EAtan a => evars P Q a
  end.
Definition rvars P Q (o : rule_out) : Prop :=
  match o with Con a _ b => evars P Q a /\ evars P Q b | _ => True end.

(** ** pyomo_utils.py 204-219 and abstract_model.py 158-159: naming the components.
    [n] is the number of components of the model so far; adding a constraint adds it and possibly
    implicit index sets ([extra], depends on the pyomo version).  [have] are the names in use that start
    with "constraint_" (no variable, parameter or set does).  pyomo raises RuntimeError when a name is
    added twice. *)
Definition str_nat (n : nat) : string := NilZero.string_of_uint (Nat.to_uint n).
Definition component_name (n : nat) (name : option string) : string :=
  "constraint_" ++ match name with None => str_nat n | Some s => s end.
Fixpoint add_all (extra : pyomo_con -> nat) (n : nat) (have : list string)
    (cs : list (option string * pyomo_con)) : result (list (string * pyomo_con)) :=
  match cs with
  | [] => Ok []
  | (nm, c) :: rest =>
      let s := component_name n nm in
      if existsb (String.eqb s) have then Err RuntimeError
      else do l <- add_all extra (n + 1 + extra c) (s :: have) rest; Ok ((s, c) :: l)
  end.
(** abstract_model.py 158-159 *)
Definition pyomo_components (p : pars) : list (option string * pyomo_con) :=
  flat_map to_pyomo (all_constraints p).
Definition create_abstract_model (extra : pyomo_con -> nat) (n : nat) (p : pars) :
    result (list (string * pyomo_con)) := add_all extra n [] (pyomo_components p).

(** ** Evaluating the rules (pyomo's create_instance).
    A rule may raise; building [e / c] with a constant [c] that is zero raises ZeroDivisionError. *)
Fixpoint is_const (e : expr) : bool :=
  match e with
  | ENum _ => true
  | EG _ _ | EV _ _ _ => false
  | EAdd a b | ESub a b | EMul a b | EDiv a b | EPow a b => is_const a && is_const b
  | ENeg a | EPowN a _ | EExp a | EAtan a => is_const a
  end.
Definition no_point : point := {| gval := fun _ _ => 0; rval := fun _ _ _ => 0 |}.
Fixpoint division_ok (e : expr) : bool :=
  match e with
  | ENum _ | EG _ _ | EV _ _ _ => true
  | EAdd a b | ESub a b | EMul a b | EPow a b => division_ok a && division_ok b
  | EDiv a b => division_ok a && division_ok b && negb (is_const b && Reqb (deno no_point b) 0)
  | ENeg a | EPowN a _ | EExp a | EAtan a => division_ok a
  end.
Definition check_rule (o : rule_out) : result unit :=
  match o with
  | Skip => Ok tt
  | Raise x => Err x
  | Con a _ b => if division_ok a && division_ok b then Ok tt else Err ZeroDivisionError
  end.
Fixpoint check_all (l : list rule_out) : result unit :=
  match l with [] => Ok tt | o :: rest => do _ <- check_rule o; check_all rest end.

(** Divisions by data in the parameter rules: emissions.py 78-79; effortsharing.py 212-213, 219-220 and
    270; economics.py 31 (TFP). *)
Definition param_divisors (p : pars) : list R :=
  flat_map (fun t => map (fun r => baseline_GDP p t r) (regions p)) (seq 0 (S (tf p)))
  ++ [Rsum (baseline_emissions p 0) (regions p)]
  ++ map (fun t => Rsum (population p t) (regions p)) (seq 0 (S (tf p)))
  ++ flat_map (fun t => map (fun r => calc_GDP_num 1 (population p t r) (TFP_capital p t r) (alpha p)) (regions p))
       (seq 0 (S (tf p))).
Definition check_params_div (p : pars) : result unit :=
  if forallb (fun x => negb (Reqb x 0)) (param_divisors p) then Ok tt else Err ZeroDivisionError.

(** mimosa.py 57-60, 65-113 (without simulation mode): abstract model, then instance *)
Definition build (extra : pyomo_con -> nat) (n : nat) (p : pars) : result (list (string * pyomo_con)) :=
  do comps <- create_abstract_model extra n p;
  do _ <- check_params_div p;
  do _ <- check_all (flat_map (fun nc => outputs (tf p) (regions p) (snd nc)) comps);
  Ok comps.
