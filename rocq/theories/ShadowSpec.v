(** Vocabulary of C70 for the welfare objective: what one unit of costs takes from welfare. *)
From Coq Require Import Reals List String.
From Verif Require Import ModelSpec SoftFacts WelfareSpec DominanceSpec ReallocateSpec.
Import ListNotations.
Open Scope R_scope.

(** Welfare of step [t] when the regions consume [c] (C43). *)
Definition welfare_of (p : pars) (t : nat) (c : region -> R) : R :=
  match welfare p with
  | welfare_loss_minimising => total p (fun q => population p t q * utility_of (elasmu p) (c q / population p t q))
  | cost_minimising => total p (population p t) * utility_of (elasmu p) (total p c / total p (population p t))
  | inequal_aversion_general => total p (population p t) *
      (Rpower (smin 1 (total p (fun q => population p t q * Rpower (smin 1 (c q / population p t q)) (1 - inequal_aversion p))
                       / total p (population p t))) ((1 - elasmu p) / (1 - inequal_aversion p)) / (1 - elasmu p))
  end.
(** [mu t q] is the marginal welfare of consumption of region [q] in step [t]: the derivative of welfare for additional consumption of this region. *)
Definition marginal_welfare (p : pars) (v : point) (mu : nat -> region -> R) : Prop :=
  forall t q, (1 <= t <= tf p)%nat -> In q (regions p) ->
    derivable_pt_lim (fun h => welfare_of p t (fun r => if String.eqb r q then consumption v t r + h else consumption v t r)) 0 (mu t q).
(** [mp t q] is the marginal product of capital. *)
Definition marginal_product (p : pars) (v : point) (mp : nat -> region -> R) : Prop :=
  forall t q, (1 <= t <= tf p)%nat -> In q (regions p) -> derivable_pt_lim (production p t q) (capital_stock v t q) (mp t q).

Section Loss.
  Variables (p : pars) (v : point) (mu mp : nat -> region -> R) (t0 : nat) (q : region).
  (** What the region keeps of its marginal product after damages *)
  Definition net_product (t : nat) : R := (1 - damage_share p v t q) * mp t q.
  (** The capital that is missing in step [t] for each unit of costs in step [t0]: in the step itself the share [sr] of the costs is not invested,
      later less is produced and invested.  Capital of a step earns and is worn in the same step, hence the denominator. *)
  Fixpoint capital_lost (t : nat) : R :=
    match t with
    | O => 0
    | S u => (capital_lost u + (if Nat.eqb t t0 then dt p * sr p else 0)) / (2 - survival p - dt p * sr p * net_product t)
    end.
  Definition income_lost (t : nat) : R := (if Nat.eqb t t0 then 1 else 0) + net_product t * capital_lost t.
  (** Discounted marginal welfare of the income lost: the welfare that a unit of costs takes (apart from the factor 1 - sr common to all). *)
  Definition value_of_costs : R := discounted p (fun t => mu t q * income_lost t) (tf p).
End Loss.
