(** C68 with the shipped files: without damages to avoid, the optimal plan is the baseline itself (run_baseline.py, second run). *)
From Coquelicot Require Import Coquelicot.
From Verif Require Import PyBase NestedDict Parsers Config ConfigDefault ConfigSpec TimeGrid DataStore DataStoreLemmas RegionalParams RegionalParamsLemmas Instantiate InstFacts InstantiateLemmas
  ConstructFacts BundledData BundledFacts BundledSigns Model ModelFacts ModelSpec ClimateSpec WelfareSpec Build BuildLemmas DefinedFacts ExistSpec ExistLemmas ExistExo
  Loading LoadingLemmas LoadingExist EndToEnd DeterminedData DominanceSpec DominanceLemmas BaselineRun.
From Coq Require Import QArith Qreals Permutation Reals Lra Lia.
Import ListNotations.
Open Scope string_scope.
Open Scope list_scope.
Open Scope R_scope.
Set Bullet Behavior "Strict Subproofs".

(** The regional calibration factors of the abatement cost curves are positive in the shipped file, for every calibration. *)
Definition mac_ok (k r : string) : bool := is_q (shipped (Direct mac) k r) (fun q => negb (Qle_bool q 0)).
Lemma mac_checked : forallb (fun k => forallb (mac_ok k) image_regions) kappas = true.
Proof. vm_compute. reflexivity. Qed.
Local Opaque coacch image_pairs economics mac mortality container_get outer_merge.
Lemma mac_positive o mo uf sp c user inst d p : construct o bundled mo uf sp c user = Ok inst -> distinct_keys user -> default_inputs user ->
  (forall l, Permutation l (mo l)) -> lookup (i_params inst) ["regions"] = Some (VDict d) -> no_overrides d ->
  prints_quantiles o -> (forall name, ~ customised (i_params inst) name) -> loads inst p -> (forall r, In r (regions p) -> In r image_regions) ->
  forall r, In r (regions p) -> 0 < MAC_scaling p r.
Proof.
  intros H DU DI PM RL NO PQ NC L RS r R.
  destruct (acc _ _ _ _ _ _ _ _ DU H) as (raw & A).
  assert (PC : plain_columns o (i_params inst)) by (apply (bundled_columns _ _ _ _ _ mo [] A PQ PM); intros r' []).
  pose proof (C60_inputs_reach_model_pf _ _ _ _ _ _ _ _ _ DU H NC PC L) as IU.
  destruct (kappa_value _ _ _ _ _ A) as (k & K1 & K2).
  pose proof mac_checked as M. rewrite forallb_forall in M. specialize (M _ K2). rewrite forallb_forall in M. specialize (M _ (RS _ R)).
  apply is_q_ok in M as (x & q & E & N & Q).
  rewrite (iu_scaling _ _ _ _ IU (VStr k) K1 r x (Q2R q) R).
  - apply Bool.negb_true_iff in Q. assert (X : ~ (q <= 0)%Q) by (intros X; apply Qle_bool_iff in X; congruence).
    apply Qnot_le_lt in X. apply Qlt_Rlt in X. unfold Q2R in X at 1. cbn in X. lra.
  - rewrite (shipped_any _ _ _ _ _ _ _ _ _ _ _ H DU DI PM RL NO) by first [exact (RS _ R)|cbn; auto]. exact E.
  - apply number_number, N.
Qed.

(** Horizons in whole decades (C61), exogenous baseline emissions, no policy limits, damages ignored or switched off, no trade or transfers:
    the plan that follows the shipped baseline emissions is optimal, and every optimal plan does exactly that. *)
Lemma C68_shipped_baseline_is_optimal_pf : forall o mo uf sp h user raw params tree d start stop,
  accepted o user raw params tree -> default_inputs user -> plain_quantities raw -> real_numbers params -> (forall name, ~ customised params name) ->
  lookup params ["regions"] = Some (VDict d) -> d <> [] -> no_overrides d -> (forall k x, In (k, x) d -> exists r, k = KStr r /\ In r image_regions) ->
  number_at params ["time"; "start"] start -> number_at params ["time"; "end"] stop -> (2010 <= start)%Q -> (start <= stop)%Q -> (stop <= 2200)%Q ->
  (forall x, number_in params ["economics"; "GDP"; "depreciation of capital"] x -> x < 1) -> whole_decades params start -> no_negative_emissions params stop ->
  prints_quantiles o -> rejects_false o -> (forall l, Permutation l (mo l)) -> units_known uf -> positive_units uf -> spline_defined sp -> through_points sp ->
  uf "Mt CO2/yr" "emissionsrate_unit" = Ok (1/1000) ->
  (forall disk a, In (disk, a) h -> disk = bundled) ->
  exists inst, construct o bundled mo uf sp (after uf sp h empty_caches) user = Ok inst /\ i_params inst = params /\ (exists p, loads inst p) /\
    forall p Tmax, loads inst p -> usable_configuration o params (Q2R start) (Q2R stop) (dt p) ->
      use_carbon_intensity p = false -> no_limits p -> alpha p < 1 -> sr p < 1 -> 0 < MAC_gamma p -> 0 <= T0 p -> 0 <= TCRE p ->
      T0 p + TCRE p * (112 * (INR (tf p) * dt p)) <= Tmax -> dt p * (Tmax + 1) < 325 ->
      (dmg_module p = COACCH -> forall r x y, In r (regions p) -> T0 p <= x <= Tmax -> 0 <= y <= sea_level_ceiling p Tmax -> -5/10 <= damages_at p r (T0 p) y <= 7/10) ->
      no_damages_counted p -> transfer p = notransfer -> trade p = notrade ->
      let follows_baseline v := forall t r, model_step p t -> In r (regions p) ->
         relative_abatement v t r = 0 /\ mitigation_costs v t r = 0 /\ regional_emissions v t r = baseline_emissions p t r in
      (exists v, optimal p v /\ follows_baseline v) /\ forall v, optimal p v -> follows_baseline v.
Proof.
  intros o mo uf sp h user raw params tree d start stop A DI PQ RN NC RL DNE NO RK NS NE B1 B2 B3 DK WD NN PR RF PM UK PU SP TP UE HH.
  assert (NO' : no_own_values d).
  { intros k x I. split; [apply (NO _ _ "economics" "init_capital_factor" I); cbn; auto|intros col; apply (NO _ _ "COACCH" col I); cbn; auto]. }
  destruct (shipped_model o mo uf sp h user raw params tree d start stop A DI PQ RN NC RL DNE NO' RK NS NE B1 B2 B3 DK WD NN PR RF PM UK PU SP TP UE HH) as (inst & H & PE & LE & K).
  exists inst. split; [exact H|]. split; [exact PE|]. split; [exact LE|]. intros p Tmax L UC CI NL AL1 SR1 MG HT HC TM DT5 DMG ND NT TR follows.
  destruct (K p L UC AL1) as (CF & NR & SD & U & SL & AL & RI & BP & CB).
  assert (DU : distinct_keys user) by (destruct A; assumption). subst params.
  assert (MS : forall r, In r (regions p) -> 0 < MAC_scaling p r) by (eapply mac_positive; eauto).
  assert (Hs : 0 <= sr p < 1) by (split; [apply NR|exact SR1]).
  assert (PD : EconLemmas.positive_data p) by apply SD.
  destruct (C52_baseline_run_exists_pf p Tmax NR SD U SL AL CI NL (fun _ t r T R => Rlt_le _ _ (BP t r T R)) (Rlt_le _ _ MG) HT HC) as (w & F & E & _).
  - intros t T. destruct (CB t T) as [C1 C2]. split; [exact C1|]. apply Rle_trans with (2 := TM). apply Rplus_le_compat_l, Rmult_le_compat_l; [exact HC|exact C2].
  - exact DT5.
  - intros D r x y Hr Hx Hy. split; [apply (DMG D r x y); auto|]. rewrite NT. discriminate.
  - destruct (C68_not_abating_is_optimal_pf p w NR Hs ltac:(lra) PD (fun t r T R => Rlt_le _ _ (BP t r T R)) (fun r R => Rlt_le _ _ (MS r R)) (Rlt_le _ _ MG) ND NT TR F (fun t r T R => proj1 (E t r T R))) as [O W].
    split; [exists w; split; [exact O|exact E]|].
    intros v Ov t r T R. destruct (W v Ov MG t r T R (MS r R) (BP t r T R)) as (W1 & W2 & _ & W4 & _).
    split; [exact W1|]. split; [exact W2|]. pose proof (proj1 Ov) as Fv. destruct t as [|t].
    + apply (Equations.q_emissions0 p v Fv r R).
    + rewrite W4 by lia. unfold baseline. rewrite (Equations.q_baseline p v Fv (S t) r T R), CI. reflexivity.
Qed.
