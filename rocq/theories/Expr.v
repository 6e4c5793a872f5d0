(** Pyomo expressions, constraints and feasible points (deep embedding over the reals).

    Models the part of pyomo used by mimosa/components: arithmetic on Var/Param, [**], exp, atan,
    relational constraints, Constraint.Skip, and the constraint classes of
    mimosa/common/pyomo_utils.py 83-201. *)
From Coq Require Export Reals List String Bool.
Export ListNotations.
From Verif Require Export PyBase.
Open Scope string_scope.
Open Scope R_scope.

Definition region := string.

(** Variables indexed by m.t. *)
Inductive gvar :=
| g_cumulative_emissions | g_global_emissions | g_emission_relative_cumulative | g_temperature
| g_slr_thermal | g_slr_cumgsic | g_slr_cumgis | g_total_SLR
| g_global_rel_mitigation_costs | g_global_emission_reduction_per_cost_unit
| g_global_cost_per_emission_reduction_unit | g_LBD_factor | g_LOT_factor | g_learning_factor
| g_global_carbonprice | g_effort_sharing_common_level | g_yearly_welfare | g_NPV.

(** Variables indexed by m.t and m.regions. *)
Inductive rvar :=
| v_regional_emissions | v_baseline | v_relative_abatement | v_regional_emission_reduction
| v_damage_costs | v_damage_costs_non_slr | v_damage_costs_slr
| v_mortality_oldest | v_mortality_older | v_mortality_young | v_mortality_cost_oldest
| v_carbonprice | v_mitigation_costs | v_area_under_MAC | v_rel_mitigation_costs
| v_import_export_emission_reduction_balance | v_import_export_mitigation_cost_balance
| v_paid_for_emission_reductions | v_regional_emission_allowances
| v_financial_transfer | v_rel_financial_transfer
| v_capital_stock | v_GDP_gross | v_GDP_net | v_investments | v_consumption | v_utility.

(** An assignment of values to all variables (what the solver returns). *)
Record point := { gval : gvar -> nat -> R; rval : rvar -> nat -> region -> R }.

(** Expressions.  [ENum] is a number or the value of a (non-mutable) Param. *)
Inductive expr :=
| ENum (x : R)
| EG (v : gvar) (t : nat)
| EV (v : rvar) (t : nat) (r : region)
| EAdd (a b : expr) | ESub (a b : expr) | EMul (a b : expr) | EDiv (a b : expr)
| ENeg (a : expr)
| EPow (a b : expr)
| EPowN (a : expr) (n : nat)   (* literal natural exponent *)
| EExp (a : expr) | EAtan (a : expr).

Declare Scope expr_scope.
Delimit Scope expr_scope with E.
Notation "a + b" := (EAdd a b) : expr_scope.
Notation "a - b" := (ESub a b) : expr_scope.
Notation "a * b" := (EMul a b) : expr_scope.
Notation "a / b" := (EDiv a b) : expr_scope.
Notation "- a" := (ENeg a) : expr_scope.
Notation "a ** b" := (EPow a b) (at level 30, right associativity) : expr_scope.
Notation "a ^ n" := (EPowN a n) : expr_scope.
Bind Scope expr_scope with expr.

(** python's [sum(f(r) for r in l)]: starts from 0, left to right *)
Definition esum (f : region -> expr) (l : list region) : expr :=
  fold_left (fun acc r => EAdd acc (f r)) l (ENum 0).

(** [x ** y] on floats where it is defined (see [pow_defd]). *)
Definition pypow (x y : R) : R :=
  if Rlt_dec 0 x then Rpower x y
  else if Req_EM_T x 0 then (if Req_EM_T y 0 then 1 else 0)
  else powerRZ x (Int_part y).
(** python: 0 to a negative power is ZeroDivisionError; a negative base needs an integer exponent
    (otherwise the result is complex). *)
Definition pow_defd (x y : R) : Prop :=
  0 < x \/ (x = 0 /\ 0 <= y) \/ (x < 0 /\ exists z, y = IZR z).

Fixpoint deno (v : point) (e : expr) : R :=
  match e with
  | ENum x => x
  | EG g t => gval v g t
  | EV x t r => rval v x t r
  | EAdd a b => deno v a + deno v b
  | ESub a b => deno v a - deno v b
  | EMul a b => deno v a * deno v b
  | EDiv a b => deno v a / deno v b
  | ENeg a => - deno v a
  | EPow a b => pypow (deno v a) (deno v b)
  | EPowN a n => deno v a ^ n
  | EExp a => exp (deno v a)
  | EAtan a => atan (deno v a)
  end.

Fixpoint defd (v : point) (e : expr) : Prop :=
  match e with
  | ENum _ | EG _ _ | EV _ _ _ => True
  | EAdd a b | ESub a b | EMul a b => defd v a /\ defd v b
  | EDiv a b => defd v a /\ defd v b /\ deno v b <> 0
  | ENeg a | EPowN a _ | EExp a | EAtan a => defd v a
  | EPow a b => defd v a /\ defd v b /\ pow_defd (deno v a) (deno v b)
  end.

(** Result of a constraint rule at one index. *)
Inductive rel := REq | RLe | RGe.
Inductive rule_out := Skip | Con (lhs : expr) (op : rel) (rhs : expr) | Raise (e : exn).
Notation "a == b" := (Con a%E REq b%E) (at level 70) : expr_scope.
Notation "a <= b" := (Con a%E RLe b%E) : expr_scope.
Notation "a >= b" := (Con a%E RGe b%E) : expr_scope.

Definition sat (v : point) (o : rule_out) : Prop :=
  match o with
  | Skip => True
  | Con a op b =>
      defd v a /\ defd v b /\
      match op with
      | REq => deno v a = deno v b
      | RLe => deno v a <= deno v b
      | RGe => deno v a >= deno v b
      end
  | Raise _ => False
  end.

(** A rule body that reads a variable at index [t - 1]: index -1 does not exist, pyomo raises KeyError. *)
Definition prev (t : nat) (k : nat -> rule_out) : rule_out :=
  match t with O => Raise KeyError | S s => k s end.

(** pyomo_utils.py 83-201.  The two soft-equality classes take two rules; [GlobalSoftEquality] is
    not used by any component and not modelled.  [s_eps] is [epsilon] (default 0.005, None allowed),
    [s_abs] is [absolute_epsilon]. *)
Inductive constr :=
| GlobalC (name : option string) (rule : nat -> rule_out)
| GlobalInitC (name : option string) (rule : rule_out)
| RegionalC (name : option string) (rule : nat -> region -> rule_out)
| RegionalInitC (name : option string) (rule : region -> rule_out)
| RegionalSoftEqC (name : string) (lhs rhs : nat -> region -> result expr) (s_eps : R)
    (s_abs : option R) (ignore_if : nat -> region -> bool).

(** pyomo_utils.py 152-156 *)
Definition rhs_eps (s_eps : R) (s_abs : option R) (rhs : expr) (is_upper : bool) : expr :=
  let factor := if is_upper then 1 else -1 in
  match s_abs with
  | Some a => (rhs + ENum (factor * a))%E
  | None => ((ENum 1 + ENum factor * ENum s_eps) * rhs)%E
  end.

(** pyomo_utils.py 158-163, 173-180: both rules are evaluated, then compared *)
Definition soft_con (s_eps : R) (s_abs : option R) (l r : result expr) (is_upper : bool) : rule_out :=
  match l, r with
  | Ok a, Ok b => Con a (if is_upper then RLe else RGe) (rhs_eps s_eps s_abs b is_upper)
  | Err x, _ => Raise x
  | _, Err x => Raise x
  end.

(** pyomo_utils.py 108-127 and 182-201: the pyomo Constraint components a constraint object becomes:
    name and rule over the index set.  An index outside the component's index set is [Skip]. *)
Inductive pyomo_con :=
| PCt (rule : nat -> rule_out)
| PC0 (rule : rule_out)
| PCtr (rule : nat -> region -> rule_out)
| PCr (rule : region -> rule_out).

Definition to_pyomo (c : constr) : list (option string * pyomo_con) :=
  match c with
  | GlobalC n f => [(n, PCt f)]
  | GlobalInitC n f => [(n, PC0 f)]
  | RegionalC n f => [(n, PCtr f)]
  | RegionalInitC n f => [(n, PCr f)]
  | RegionalSoftEqC n l r eps abs ign =>
      [ (Some (n ++ "_upperbound"),
         PCtr (fun t g => if negb (ign t g) then soft_con eps abs (l t g) (r t g) true else Skip));
        (Some (n ++ "_lowerbound"),
         PCtr (fun t g => if negb (ign t g) then soft_con eps abs (l t g) (r t g) false else Skip)) ]
  end.

(** all (expanded) rule outputs of a component over m.t = 0..tf and m.regions *)
Definition outputs (tf : nat) (regs : list region) (c : pyomo_con) : list rule_out :=
  match c with
  | PCt f => map f (seq 0 (S tf))
  | PC0 f => [f]
  | PCtr f => flat_map (fun t => map (f t) regs) (seq 0 (S tf))
  | PCr f => map f regs
  end.
Definition con_holds (tf : nat) (regs : list region) (v : point) (c : pyomo_con) : Prop :=
  forall o, In o (outputs tf regs c) -> sat v o.
