(** Vocabulary of C68. *)
From Verif Require Import ModelSpec.

(** Share of gross output that net output loses to damages: the option "ignore damages" leaves damages out of net output. *)
Definition damage_share (p : pars) (v : point) (t : nat) (r : region) : R :=
  if ignore_damages p then 0 else damage_costs v t r.
(** There is no damage that abatement could avoid: the "nodamage" module, or damages ignored in net output. The cost objective counts damages
    even when they are ignored in net output, so there only the module counts. *)
Definition no_damages_counted (p : pars) : Prop :=
  dmg_module p = nodamage \/ (ignore_damages p = true /\ objective p = utility).
