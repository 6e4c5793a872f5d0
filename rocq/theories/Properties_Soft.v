(** Property theorems (generated by tools/gen_props.py from the proved lemmas; statements only). *)
From Verif Require Import Model ModelSpec SoftLemmas.

Theorem C50_soft_switch : forall v x y scale, 0 < scale ->
  0 < deno v (soft_switch x scale) < 1 /\
  (deno v x < deno v y -> deno v (soft_switch x scale) < deno v (soft_switch y scale)) /\
  (deno v x = 0 -> deno v (soft_switch x scale) = 1/2).
Proof. exact C50_soft_switch_pf. Qed.
Print Assumptions C50_soft_switch.

Theorem C50_soft_min : forall v x y scale, 0 < scale ->
  Rmax (deno v x) 0 < deno v (soft_min x scale) <= Rmax (deno v x) 0 + scale / (25 * PI) /\
  (deno v x < deno v y -> deno v (soft_min x scale) < deno v (soft_min y scale)) /\
  deno v (soft_min x scale) - deno v (soft_min (- x)%E scale) = deno v x /\
  (deno v x < deno v y -> deno v (soft_min y scale) - deno v (soft_min x scale) < deno v y - deno v x) /\
  (defd v x -> defd v (soft_min x scale)).
Proof. exact C50_soft_min_pf. Qed.
Print Assumptions C50_soft_min.

Theorem C50_soft_max : forall v x y m scale, 0 < scale ->
  Rmin (deno v x) (deno v m) - scale / (25 * PI) <= deno v (soft_max x m scale)
    < Rmin (deno v x) (deno v m) /\
  (deno v x < deno v y -> deno v (soft_max x m scale) < deno v (soft_max y m scale)).
Proof. exact C50_soft_max_pf. Qed.
Print Assumptions C50_soft_max.

Theorem C51_soft_equality : forall tfin regs v l r eps abs ign t g a b,
  soft_equality_holds tfin regs v l r eps abs ign -> (t <= tfin)%nat -> In g regs -> ign t g = false ->
  l t g = Ok a -> r t g = Ok b ->
  Rabs (deno v a - deno v b) <= match abs with Some d => d | None => eps * deno v b end.
Proof. exact C51_soft_equality_pf. Qed.
Print Assumptions C51_soft_equality.

(** exactly that, and nothing more *)
Theorem C51_soft_equality_exact : forall tfin regs v l r eps abs ign,
  (forall t g, (t <= tfin)%nat -> In g regs -> ign t g = false ->
     exists a b, l t g = Ok a /\ r t g = Ok b /\ defd v a /\ defd v b /\
       Rabs (deno v a - deno v b) <= match abs with Some d => d | None => eps * deno v b end) ->
  soft_equality_holds tfin regs v l r eps abs ign.
Proof. exact C51_soft_equality_exact_pf. Qed.
Print Assumptions C51_soft_equality_exact.

(** "whatever the sign of the right-hand side" fails for the relative tolerance *)
Theorem C51_negative_rhs_infeasible_refuted : forall tfin regs v l r eps ign t g a b,
  (t <= tfin)%nat -> In g regs -> ign t g = false -> l t g = Ok a -> r t g = Ok b ->
  deno v b < 0 -> 0 < eps -> ~ soft_equality_holds tfin regs v l r eps None ign.
Proof. exact C51_negative_rhs_infeasible_refuted_pf. Qed.
Print Assumptions C51_negative_rhs_infeasible_refuted.
