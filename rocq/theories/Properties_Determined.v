(** Property theorems (generated by tools/gen_props.py from the proved lemmas; statements only). *)
From Verif Require Import PyBase NestedDict Parsers Config ConfigDefault ConfigSpec TimeGrid DataStore RegionalParams Instantiate InstFacts DataStoreLemmas BundledData BundledFacts
  InstantiateLemmas ConstructFacts BundledSigns Model WelfareSpec Build Loading EndToEnd SameInputs ScopeLemmas Determined DeterminedData DeterminedExample.
From Coq Require Import Reals QArith Qreals Permutation.
Import ListNotations.
Open Scope string_scope.
Open Scope list_scope.
Open Scope R_scope.

Theorem C66_same_constraints : forall p q, same_numbers p q ->
  generated p = generated q /\ param_divisors p = param_divisors q /\ forall v, (feasible p v <-> feasible q v) /\ (optimal p v <-> optimal q v).
Proof. exact C66_same_constraints_pf. Qed.
Print Assumptions C66_same_constraints.

Theorem C66_instance_determines : forall inst p q, loads inst p -> loads inst q -> all_known inst (tf p) (regions p) ->
  generated p = generated q /\ param_divisors p = param_divisors q /\ forall v, (feasible p v <-> feasible q v) /\ (optimal p v <-> optimal q v).
Proof. exact C66_instance_determines_pf. Qed.
Print Assumptions C66_instance_determines.

(** With the shipped files every number that the model uses is there, whatever was constructed before. *)
Theorem C66_shipped_known : forall o mo uf sp c user inst d p, distinct_keys user -> default_inputs user -> (forall l, Permutation l (mo l)) -> prints_quantiles o ->
  construct o bundled mo uf sp c user = Ok inst -> (forall name, ~ customised (i_params inst) name) ->
  lookup (i_params inst) ["regions"] = Some (VDict d) -> no_overrides d -> (forall k x, In (k, x) d -> exists r, k = KStr r /\ In r image_regions) ->
  loads inst p -> all_known inst (tf p) (regions p).
Proof. exact C66_shipped_known_pf. Qed.
Print Assumptions C66_shipped_known.

(** Two objects made from the same configuration and the shipped files, whatever was constructed before in either session: the same
    constraints under the same names, the same feasible and the same optimal plans. *)
Theorem C66_reproducible : forall o mo uf sp h h' user inst inst' d p q,
  distinct_keys user -> default_inputs user -> (forall l, Permutation l (mo l)) -> prints_quantiles o ->
  (forall disk a, In (disk, a) (h ++ h') -> disk = bundled) ->
  construct o bundled mo uf sp (after uf sp h empty_caches) user = Ok inst ->
  construct o bundled mo uf sp (after uf sp h' empty_caches) user = Ok inst' ->
  (forall name, ~ customised (i_params inst) name) -> lookup (i_params inst) ["regions"] = Some (VDict d) -> no_overrides d ->
  (forall k x, In (k, x) d -> exists r, k = KStr r /\ In r image_regions) ->
  loads inst p -> loads inst' q ->
  generated p = generated q /\ forall v, (feasible p v <-> feasible q v) /\ (optimal p v <-> optimal q v).
Proof. exact C66_reproducible_pf. Qed.
Print Assumptions C66_reproducible.

(** C63 and C64 about every pair of models that the two instances stand for. *)
Theorem C63_cut_off_any : forall o disk mo uf sp h h' user user' inst inst' p p' start stop stop',
  distinct_keys user -> distinct_keys user' -> (forall d b, In (d, b) (h ++ h') -> d = disk) ->
  construct o disk mo uf sp (after uf sp h empty_caches) user = Ok inst ->
  construct o disk mo uf sp (after uf sp h' empty_caches) user' = Ok inst' ->
  same_but_scope (i_params inst) (i_params inst') -> Permutation (i_regions inst) (i_regions inst') ->
  number_at (i_params inst) ["time"; "start"] start -> number_at (i_params inst) ["time"; "end"] stop -> number_at (i_params inst') ["time"; "end"] stop' ->
  (start <= stop')%Q -> (stop' <= stop)%Q -> loads inst p -> loads inst' p' -> all_known inst' (tf p') (regions p') ->
  (tf p' <= tf p)%nat /\ (forall v, feasible p v -> feasible p' v) /\
    forall v w, feasible p w -> optimal p' v -> objective p = utility -> gval w g_NPV (tf p') <= gval v g_NPV (tf p').
Proof. exact C63_cut_off_any_pf. Qed.
Print Assumptions C63_cut_off_any.

Theorem C64_listing_order_any : forall o disk mo uf sp h h' user user' inst inst' p p',
  distinct_keys user -> distinct_keys user' -> (forall d b, In (d, b) (h ++ h') -> d = disk) ->
  construct o disk mo uf sp (after uf sp h empty_caches) user = Ok inst ->
  construct o disk mo uf sp (after uf sp h' empty_caches) user' = Ok inst' ->
  same_but_scope (i_params inst) (i_params inst') -> lookup (i_params inst') ["time"; "end"] = lookup (i_params inst) ["time"; "end"] ->
  Permutation (i_regions inst) (i_regions inst') -> loads inst p -> loads inst' p' -> all_known inst' (tf p') (regions p') ->
  tf p' = tf p /\ forall v, (feasible p' v <-> feasible p v) /\ (optimal p' v <-> optimal p v).
Proof. exact C64_listing_order_any_pf. Qed.
Print Assumptions C64_listing_order_any.
