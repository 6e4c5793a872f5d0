(** Property theorems (generated by tools/gen_props.py from the proved lemmas; statements only). *)
From Verif Require Import PyBase NestedDict Parsers Config ConfigDefault ConfigSpec TimeGrid DataStore RegionalParams Instantiate InstFacts DataStoreLemmas BundledFacts
  Model WelfareSpec Loading Setters2 Horizon RegionOrder SameInputs ScopeLemmas ScopeExample.
From Coq Require Import Reals QArith Qreals Permutation.
Import ListNotations.
Open Scope string_scope.
Open Scope list_scope.
Open Scope R_scope.

Theorem C63_shorter_horizon : forall p n v, feasible p v -> (n <= tf p)%nat -> feasible (with_tf n p) v.
Proof. exact C63_shorter_horizon_pf. Qed.
Print Assumptions C63_shorter_horizon.

Theorem C63_longer_run_no_better : forall p n v w,
  optimal (with_tf n p) v -> feasible p w -> (n <= tf p)%nat ->
  (objective p = utility -> gval w g_NPV n <= gval v g_NPV n) /\
  (objective p = globalcosts -> gval v g_NPV n <= gval w g_NPV n).
Proof. exact C63_longer_run_no_better_pf. Qed.
Print Assumptions C63_longer_run_no_better.

Theorem C64_region_order : forall p l v, Permutation (regions p) l ->
  (feasible (with_regions l p) v <-> feasible p v).
Proof. exact C64_region_order_pf. Qed.
Print Assumptions C64_region_order.

Theorem C64_region_order_optimal : forall p l v, Permutation (regions p) l ->
  (optimal (with_regions l p) v <-> optimal p v).
Proof. exact C64_region_order_optimal_pf. Qed.
Print Assumptions C64_region_order_optimal.

(** The numbers of a model whose configuration has another end year, or leaves out or reorders regions. *)
Theorem C63_same_numbers : forall o disk mo uf sp h h' user user' inst inst' p start stop stop',
  distinct_keys user -> distinct_keys user' -> (forall d b, In (d, b) (h ++ h') -> d = disk) ->
  construct o disk mo uf sp (after uf sp h empty_caches) user = Ok inst ->
  construct o disk mo uf sp (after uf sp h' empty_caches) user' = Ok inst' ->
  same_but_scope (i_params inst) (i_params inst') ->
  number_at (i_params inst) ["time"; "start"] start -> number_at (i_params inst) ["time"; "end"] stop -> number_at (i_params inst') ["time"; "end"] stop' ->
  (start <= stop')%Q -> (stop' <= stop)%Q -> loads inst p ->
  exists n, (n <= tf p)%nat /\ loads inst' (with_regions (i_regions inst') (with_tf n p)).
Proof. exact C63_same_numbers_pf. Qed.
Print Assumptions C63_same_numbers.

(** Shortening the horizon: a plan of the longer model, cut off at the end of the shorter one, is a plan of the shorter model. *)
Theorem C63_cut_off : forall o disk mo uf sp h h' user user' inst inst' p start stop stop',
  distinct_keys user -> distinct_keys user' -> (forall d b, In (d, b) (h ++ h') -> d = disk) ->
  construct o disk mo uf sp (after uf sp h empty_caches) user = Ok inst ->
  construct o disk mo uf sp (after uf sp h' empty_caches) user' = Ok inst' ->
  same_but_scope (i_params inst) (i_params inst') -> Permutation (i_regions inst) (i_regions inst') ->
  number_at (i_params inst) ["time"; "start"] start -> number_at (i_params inst) ["time"; "end"] stop -> number_at (i_params inst') ["time"; "end"] stop' ->
  (start <= stop')%Q -> (stop' <= stop)%Q -> loads inst p ->
  exists p', loads inst' p' /\ (tf p' <= tf p)%nat /\ (forall v, feasible p v -> feasible p' v) /\
    forall v w, feasible p w -> optimal p' v -> objective p = utility -> gval w g_NPV (tf p') <= gval v g_NPV (tf p').
Proof. exact C63_cut_off_pf. Qed.
Print Assumptions C63_cut_off.

(** Leaving regions out, or listing them in another order, changes no number of the regions that are kept. *)
Theorem C64_left_out : forall o disk mo uf sp h h' user user' inst inst' p,
  distinct_keys user -> distinct_keys user' -> (forall d b, In (d, b) (h ++ h') -> d = disk) ->
  construct o disk mo uf sp (after uf sp h empty_caches) user = Ok inst ->
  construct o disk mo uf sp (after uf sp h' empty_caches) user' = Ok inst' ->
  same_but_scope (i_params inst) (i_params inst') -> lookup (i_params inst') ["time"; "end"] = lookup (i_params inst) ["time"; "end"] -> loads inst p ->
  loads inst' (with_regions (i_regions inst') p).
Proof. exact C64_left_out_pf. Qed.
Print Assumptions C64_left_out.

(** The order of the regions in the configuration. *)
Theorem C64_listing_order : forall o disk mo uf sp h h' user user' inst inst' p,
  distinct_keys user -> distinct_keys user' -> (forall d b, In (d, b) (h ++ h') -> d = disk) ->
  construct o disk mo uf sp (after uf sp h empty_caches) user = Ok inst ->
  construct o disk mo uf sp (after uf sp h' empty_caches) user' = Ok inst' ->
  same_but_scope (i_params inst) (i_params inst') -> lookup (i_params inst') ["time"; "end"] = lookup (i_params inst) ["time"; "end"] ->
  Permutation (i_regions inst) (i_regions inst') -> loads inst p ->
  exists p', loads inst' p' /\ tf p' = tf p /\ forall v, (feasible p' v <-> feasible p v) /\ (optimal p' v <-> optimal p v).
Proof. exact C64_listing_order_pf. Qed.
Print Assumptions C64_listing_order.
