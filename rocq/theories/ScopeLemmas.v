(** C63 and C64 for models made from configurations. *)
From Verif Require Import PyBase NestedDict Parsers Config ConfigDefault NestedDictFacts ConfigSpec ConfigBridge ConfigLemmas
  TimeGrid DataStore RegionalParams Instantiate InstFacts TimeGridLemmas DataStoreLemmas RegionalParamsLemmas InstantiateLemmas ConstructFacts BundledFacts BundledSigns
  Model WelfareSpec Loading Setters2 Horizon RegionOrder SameInputs.
From Coq Require Import Reals Lra Lia QArith Qreals Permutation.
Import ListNotations.
Open Scope string_scope.
Open Scope list_scope.
Open Scope R_scope.
Set Bullet Behavior "Strict Subproofs".

Lemma args_grid params rs a start stop : store_args_of params rs = Ok a ->
  number_at params ["time"; "start"] start -> number_at params ["time"; "end"] stop -> a_start a = Q2R start /\ a_end a = Q2R stop.
Proof.
  unfold store_args_of. intros H (vs & LS & NS) (ve & LE & NE). apply config_lookup in LS, LE.
  rewrite LS in H. cbn [bind] in H. rewrite (number_year _ _ NS) in H. cbn [bind] in H. rewrite LE in H. cbn [bind] in H.
  rewrite (number_year _ _ NE) in H. cbn [bind] in H. apply bind_ok in H as (d & _ & H). apply bind_ok in H as (d2 & _ & H).
  apply bind_ok in H as (v & _ & H). apply bind_ok in H as (v2 & _ & H). apply bind_ok in H as (v3 & _ & H).
  apply Ok_inj in H. rewrite H. cbn [a_start a_end]. auto.
Qed.
Lemma construct_args o disk mo uf sp c user inst : construct o disk mo uf sp c user = Ok inst -> store_args_of (i_params inst) (i_regions inst) = Ok (i_args inst).
Proof. intros C. destruct (construct_inv _ _ _ _ _ _ _ _ C) as (raw & rs & ch & decls & st & dt & _ & _ & _ & _ & _ & _ & _ & H & _). exact H. Qed.
Lemma construct_tf o disk mo uf sp c user inst p : construct o disk mo uf sp c user = Ok inst -> loads inst p ->
  num_years (a_start (i_args inst)) (a_end (i_args inst)) (a_dt (i_args inst)) = (Z.of_nat (tf p) + 1)%Z.
Proof.
  intros C L. destruct (construct_inv _ _ _ _ _ _ _ _ C) as (raw & rs & ch & decls & st & dt & _ & _ & _ & _ & _ & MP & _ & _ & _ & _ & _ & D).
  pose proof (ld_tf _ _ L) as T. unfold data_of in T. pose proof (tf_value _ _ _ _ _ _ _ _ _ _ _ _ _ _ _ MP D T) as N. injection N as N. lia.
Qed.
Lemma with_tf_self p : with_tf (tf p) p = p. Proof. destruct p. reflexivity. Qed.
Lemma construct_regions o disk mo uf sp h user inst p : distinct_keys user -> (forall d b, In (d, b) h -> d = disk) ->
  construct o disk mo uf sp (after uf sp h empty_caches) user = Ok inst -> loads inst p -> regions p = i_regions inst.
Proof.
  intros DU HH C L.
  pose proof (scope_numbers o disk mo uf sp h h user user inst inst p (tf p) DU DU
    (fun d b I => match in_app_or _ _ _ I with or_introl X => HH d b X | or_intror X => HH d b X end) C C (same_self _) L
    (construct_tf _ _ _ _ _ _ _ _ _ C L) (le_n _)) as L'.
  pose proof (ld_regions _ _ L) as R. pose proof (ld_regions _ _ L') as R'. rewrite R in R'. cbn [with_regions regions] in R'. injection R' as R'. exact R'.
Qed.

(** The numbers of a model whose configuration has another end year, or leaves out or reorders regions. *)
Lemma C63_same_numbers_pf : forall o disk mo uf sp h h' user user' inst inst' p start stop stop',
  distinct_keys user -> distinct_keys user' -> (forall d b, In (d, b) (h ++ h') -> d = disk) ->
  construct o disk mo uf sp (after uf sp h empty_caches) user = Ok inst ->
  construct o disk mo uf sp (after uf sp h' empty_caches) user' = Ok inst' ->
  same_but_scope (i_params inst) (i_params inst') ->
  number_at (i_params inst) ["time"; "start"] start -> number_at (i_params inst) ["time"; "end"] stop -> number_at (i_params inst') ["time"; "end"] stop' ->
  (start <= stop')%Q -> (stop' <= stop)%Q -> loads inst p ->
  exists n, (n <= tf p)%nat /\ loads inst' (with_regions (i_regions inst') (with_tf n p)).
Proof.
  intros o disk mo uf sp h h' user user' inst inst' p start stop stop' DU DU' HH C C' SB NS NE NE' B1 B2 L.
  destruct (args_grid _ _ _ _ _ (construct_args _ _ _ _ _ _ _ _ C) NS NE) as [A1 A2].
  assert (NS' : number_at (i_params inst') ["time"; "start"] start) by (destruct NS as (v & X & Y); exists v; split; [rewrite (sb_rest _ _ SB) by reflexivity; exact X|exact Y]).
  destruct (args_grid _ _ _ _ _ (construct_args _ _ _ _ _ _ _ _ C') NS' NE') as [A3 A4].
  pose proof (args_dt _ _ _ _ _ _ _ _ DU C) as DT. pose proof (construct_tf _ _ _ _ _ _ _ _ _ C L) as TF.
  apply Qle_Rle in B1, B2. rewrite A1, A2 in TF.
  assert (C0 : (0 <= ceil ((Q2R stop' - Q2R start) / a_dt (i_args inst)))%Z).
  { replace 0%Z with (ceil 0). 2:{ unfold ceil. pose proof (archimed (- 0)) as [U V]. assert (up (- 0) = 1%Z); [|lia].
      symmetry. apply tech_up; lra. }
    apply ceil_mono. apply Rmult_le_pos; [lra|]. apply Rlt_le, Rinv_0_lt_compat. lra. }
  assert (C1 : (ceil ((Q2R stop' - Q2R start) / a_dt (i_args inst)) <= ceil ((Q2R stop - Q2R start) / a_dt (i_args inst)))%Z).
  { apply ceil_mono. apply Rmult_le_compat_r; [|lra]. apply Rlt_le, Rinv_0_lt_compat. lra. }
  exists (Z.to_nat (ceil ((Q2R stop' - Q2R start) / a_dt (i_args inst)))). unfold num_years in TF. split; [lia|].
  eapply scope_numbers; [exact DU|exact DU'|exact HH|exact C|exact C'|exact SB|exact L| |lia].
  rewrite A1, A4. unfold num_years. lia.
Qed.

(** Shortening the horizon: a plan of the longer model, cut off at the end of the shorter one, is a plan of the shorter model. *)
Lemma C63_cut_off_pf : forall o disk mo uf sp h h' user user' inst inst' p start stop stop',
  distinct_keys user -> distinct_keys user' -> (forall d b, In (d, b) (h ++ h') -> d = disk) ->
  construct o disk mo uf sp (after uf sp h empty_caches) user = Ok inst ->
  construct o disk mo uf sp (after uf sp h' empty_caches) user' = Ok inst' ->
  same_but_scope (i_params inst) (i_params inst') -> Permutation (i_regions inst) (i_regions inst') ->
  number_at (i_params inst) ["time"; "start"] start -> number_at (i_params inst) ["time"; "end"] stop -> number_at (i_params inst') ["time"; "end"] stop' ->
  (start <= stop')%Q -> (stop' <= stop)%Q -> loads inst p ->
  exists p', loads inst' p' /\ (tf p' <= tf p)%nat /\ (forall v, feasible p v -> feasible p' v) /\
    forall v w, feasible p w -> optimal p' v -> objective p = utility -> gval w g_NPV (tf p') <= gval v g_NPV (tf p').
Proof.
  intros o disk mo uf sp h h' user user' inst inst' p start stop stop' DU DU' HH C C' SB PM NS NE NE' B1 B2 L.
  destruct (C63_same_numbers_pf o disk mo uf sp h h' user user' inst inst' p start stop stop' DU DU' HH C C' SB NS NE NE' B1 B2 L) as (n & N & L').
  exists (with_regions (i_regions inst') (with_tf n p)). split; [exact L'|]. split; [exact N|].
  assert (RG : regions p = i_regions inst) by (eapply construct_regions; [exact DU| |exact C|exact L]; intros; eapply HH; apply in_or_app; eauto).
  assert (PM' : Permutation (regions (with_tf n p)) (i_regions inst')) by (cbn [with_tf regions]; rewrite RG; exact PM).
  split.
  - intros v F. apply C64_region_order_pf; [exact PM'|]. apply C63_shorter_horizon_pf; assumption.
  - intros v w F O OB. cbn [with_regions with_tf tf]. apply C64_region_order_optimal_pf in O; [|exact PM'].
    exact (proj1 (C63_longer_run_no_better_pf p n v w O F N) OB).
Qed.

(** Leaving regions out, or listing them in another order, changes no number of the regions that are kept. *)
Lemma C64_left_out_pf : forall o disk mo uf sp h h' user user' inst inst' p,
  distinct_keys user -> distinct_keys user' -> (forall d b, In (d, b) (h ++ h') -> d = disk) ->
  construct o disk mo uf sp (after uf sp h empty_caches) user = Ok inst ->
  construct o disk mo uf sp (after uf sp h' empty_caches) user' = Ok inst' ->
  same_but_scope (i_params inst) (i_params inst') -> lookup (i_params inst') ["time"; "end"] = lookup (i_params inst) ["time"; "end"] -> loads inst p ->
  loads inst' (with_regions (i_regions inst') p).
Proof.
  intros o disk mo uf sp h h' user user' inst inst' p DU DU' HH C C' SB EE L.
  rewrite <- (with_tf_self p) at 1.
  eapply scope_numbers; [exact DU|exact DU'|exact HH|exact C|exact C'|exact SB|exact L| |auto with arith].
  rewrite <- (construct_tf _ _ _ _ _ _ _ _ _ C L). f_equal.
  pose proof (construct_args _ _ _ _ _ _ _ _ C) as SA. pose proof (construct_args _ _ _ _ _ _ _ _ C') as SA'.
  unfold store_args_of in SA, SA'.
  apply bind_ok in SA as (s & S & SA). apply bind_ok in SA as (s2 & S2 & SA). apply bind_ok in SA as (e & E & SA). apply bind_ok in SA as (e2 & E2 & SA).
  apply bind_ok in SA as (d & D & SA). apply bind_ok in SA as (d2 & D2 & SA). apply bind_ok in SA as (v & V & SA). apply bind_ok in SA as (v2 & V2 & SA).
  apply bind_ok in SA as (v3 & V3 & SA). apply Ok_inj in SA.
  apply bind_ok in SA' as (s' & S' & SA'). apply bind_ok in SA' as (s2' & S2' & SA'). apply bind_ok in SA' as (e' & E' & SA'). apply bind_ok in SA' as (e2' & E2' & SA').
  apply bind_ok in SA' as (d' & D' & SA'). apply bind_ok in SA' as (d2' & D2' & SA'). apply bind_ok in SA' as (v' & V' & SA'). apply bind_ok in SA' as (v2' & V2' & SA').
  apply bind_ok in SA' as (v3' & V3' & SA'). apply Ok_inj in SA'. rewrite SA, SA'. cbn [a_end].
  apply config_lookup in E, E'. rewrite EE, E in E'. injection E' as <-. rewrite E2 in E2'. injection E2' as <-. reflexivity.
Qed.
(** The order of the regions in the configuration. *)
Lemma C64_listing_order_pf : forall o disk mo uf sp h h' user user' inst inst' p,
  distinct_keys user -> distinct_keys user' -> (forall d b, In (d, b) (h ++ h') -> d = disk) ->
  construct o disk mo uf sp (after uf sp h empty_caches) user = Ok inst ->
  construct o disk mo uf sp (after uf sp h' empty_caches) user' = Ok inst' ->
  same_but_scope (i_params inst) (i_params inst') -> lookup (i_params inst') ["time"; "end"] = lookup (i_params inst) ["time"; "end"] ->
  Permutation (i_regions inst) (i_regions inst') -> loads inst p ->
  exists p', loads inst' p' /\ tf p' = tf p /\ forall v, (feasible p' v <-> feasible p v) /\ (optimal p' v <-> optimal p v).
Proof.
  intros o disk mo uf sp h h' user user' inst inst' p DU DU' HH C C' SB EE PM L.
  assert (RG : regions p = i_regions inst) by (eapply construct_regions; [exact DU| |exact C|exact L]; intros; eapply HH; apply in_or_app; eauto).
  exists (with_regions (i_regions inst') p). split; [|split].
  - eapply C64_left_out_pf; [exact DU|exact DU'|exact HH|exact C|exact C'|exact SB|exact EE|exact L].
  - reflexivity.
  - intros v. assert (PM' : Permutation (regions p) (i_regions inst')) by (rewrite RG; exact PM). split.
    + apply C64_region_order_pf, PM'.
    + apply C64_region_order_optimal_pf, PM'.
Qed.
