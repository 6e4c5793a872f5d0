(** C67 for configurations: with the shipped files an optimal plan exists whenever the constraints can be met. *)
From Coquelicot Require Import Coquelicot.
From Verif Require Import PyBase NestedDict Parsers Config ConfigDefault ConfigSpec TimeGrid DataStore DataStoreLemmas RegionalParams Instantiate InstFacts InstantiateLemmas
  ConstructFacts BundledData BundledFacts BundledSigns Model ModelSpec ClimateSpec WelfareSpec Build BuildLemmas DefinedFacts Loading LoadingLemmas LoadingExist EndToEnd OptimumLemmas OptimumHarm.
From Coq Require Import QArith Qreals Permutation Reals Lra Lia.
Import ListNotations.
Open Scope string_scope.
Open Scope list_scope.
Open Scope R_scope.
Set Bullet Behavior "Strict Subproofs".

(** *** Specification *)
(** Regions whose shipped damage functions grow with warming for every quantile, with and without adaptation, separate and combined. *)
Definition harmed_regions : list string :=
  ["CAN"; "USA"; "WAF"; "EAF"; "SAF"; "WEU"; "CEU"; "UKR"; "STAN"; "RUS"; "KOR"; "JAP"; "RSAS"; "RSAF"].
(** Configurations whose welfare is well defined: capital is needed but not everything, and either emissions do not follow income, or welfare
    counts the consumption of every region with elasticities above 1, nothing is transferred, and some region is harmed by warming. *)
Record well_posed (o : oracles) (params : pyval) (d : pydict) : Prop := {
  wp_alpha : forall x, number_in params ["economics"; "GDP"; "alpha"] x -> x < 1;
  wp_case : flag_in params ["emissions"; "baseline carbon intensity"] false \/
    (text_in params ["model"; "objective module"] "utility" /\ ~ text_in params ["model"; "welfare module"] "cost_minimising" /\
     text_in params ["model"; "financialtransfer module"] "notransfer" /\
     (forall x, number_in params ["economics"; "elasmu"] x -> 1 < x) /\
     (text_in params ["model"; "welfare module"] "inequal_aversion_general" -> forall x, number_in params ["economics"; "inequal_aversion"] x -> 1 < x) /\
     (forall x, number_in params ["economics"; "GDP"; "savings rate"] x -> x < 1) /\
     (forall x, quantity_in o params ["temperature"; "TCRE"] "(temperature_unit)/(emissions_unit)" x -> 0 <= x) /\
     (forall x, number_in params ["economics"; "damages"; "scale factor"] x -> 0 < x) /\
     exists r x, In (KStr r, x) d /\ In r harmed_regions)
}.

Definition positive_q (v : result pyval) : bool := is_q v (fun q => negb (Qle_bool q 0)).
Definition harmed (r : string) : bool :=
  match shipped coacch_map "NoSLR_form" r with
  | Ok (VStr s) => negb (str_contains "Linear" s) && str_contains "Quadratic" s && positive_q (shipped coacch_map "NoSLR_b2" r) &&
      forallb (fun l => positive_q (shipped coacch_map ("NoSLR_a (q=" ++ l ++ ")") r)) labels &&
      forallb (fun ad => forallb (fun l => positive_q (shipped coacch_map ("combined_b2_" ++ ad ++ "-q" ++ l) r)) labels) ["Ad"; "NoAd"]
  | _ => false end.
Lemma harmed_checked : forallb harmed harmed_regions = true.
Proof. vm_compute. reflexivity. Qed.
Local Opaque coacch image_pairs economics mac mortality container_get outer_merge labels.
Lemma positive_q_ok v : positive_q v = true -> exists x q, v = Ok x /\ number x = Ok (Q2R q) /\ 0 < Q2R q.
Proof.
  intros H. apply is_q_ok in H as (x & q & E & N & Q). exists x, q. split; [exact E|]. split; [apply number_number, N|].
  apply Bool.negb_true_iff in Q. assert (X : ~ (q <= 0)%Q) by (intros X; apply Qle_bool_iff in X; congruence).
  apply Qnot_le_lt in X. apply Qlt_Rlt in X. unfold Q2R in X at 1. cbn in X. lra.
Qed.
Lemma quadratic_grows d r s : str_contains "Linear" (d_form d r) = false -> str_contains "Quadratic" (d_form d r) = true ->
  0 < s -> 0 < d_a d r -> 0 < d_b2 d r -> forall M, exists X, forall x, X <= x -> M <= s * damage_curve d r (x - 6/10).
Proof.
  intros F1 F2 S A B M. set (k := s * d_a d r / 100). assert (K : 0 < k) by (unfold k; apply Rdiv_lt_0_compat; [apply Rmult_lt_0_compat; assumption|lra]).
  set (w := Rabs M / k). assert (W : 0 <= w) by (apply Rdiv_le_0_compat; [apply Rabs_pos|exact K]).
  exists (2 + (Rabs (d_b1 d r) + w) / d_b2 d r). intros x X.
  unfold damage_curve. rewrite F1, F2. set (y := x - 6/10).
  assert (Z : 0 <= (Rabs (d_b1 d r) + w) / d_b2 d r) by (apply Rdiv_le_0_compat; [pose proof (Rabs_pos (d_b1 d r)); lra|exact B]).
  assert (Y : 1 <= y /\ (Rabs (d_b1 d r) + w) / d_b2 d r <= y) by (unfold y; lra). destruct Y as [Y1 Y2].
  assert (BY : Rabs (d_b1 d r) + w <= d_b2 d r * y).
  { apply Rmult_le_compat_l with (r := d_b2 d r) in Y2; [|lra]. replace (d_b2 d r * ((Rabs (d_b1 d r) + w) / d_b2 d r)) with (Rabs (d_b1 d r) + w) in Y2 by (field; lra). exact Y2. }
  pose proof (Rle_abs (- d_b1 d r)) as Q. rewrite Rabs_Ropp in Q.
  assert (G : w <= d_b1 d r * y + d_b2 d r * y ^ 2).
  { replace (d_b1 d r * y + d_b2 d r * y ^ 2) with (y * (d_b1 d r + d_b2 d r * y)) by ring. apply Rle_trans with (1 * w); [lra|].
    apply Rmult_le_compat; lra. }
  replace (s * (d_a d r * (d_b1 d r * y + d_b2 d r * y ^ 2) / 100)) with (k * (d_b1 d r * y + d_b2 d r * y ^ 2)) by (unfold k; field).
  apply Rle_trans with (k * w); [|apply Rmult_le_compat_l; lra].
  unfold w. replace (k * (Rabs M / k)) with (Rabs M) by (field; lra). apply Rle_abs.
Qed.

Lemma harmed_loaded o mo uf sp c user inst d p r x : construct o bundled mo uf sp c user = Ok inst -> distinct_keys user -> default_inputs user ->
  (forall l, Permutation l (mo l)) -> lookup (i_params inst) ["regions"] = Some (VDict d) -> no_own_values d ->
  prints_quantiles o -> (forall name, ~ customised (i_params inst) name) -> loads inst p -> (forall r, In r (regions p) -> In r image_regions) ->
  In (KStr r, x) d -> In r harmed_regions -> (dmg_module p = COACCH -> 0 < damage_scale_factor p) -> harm_grows p.
Proof.
  intros H DU DI PM RL NO PQ NC L RS ID HR SC DM. destruct (acc _ _ _ _ _ _ _ _ DU H) as (raw & A).
  assert (PC : plain_columns o (i_params inst)) by (apply (bundled_columns _ _ _ _ _ mo [] A PQ PM); intros r' []).
  pose proof (C60_inputs_reach_model_pf _ _ _ _ _ _ _ _ _ DU H NC PC L) as IU.
  pose proof (C60_configuration_reaches_model_pf _ _ _ _ _ _ _ _ _ DU H NC L) as CF.
  assert (R : In r (regions p)).
  { destruct (cf_regions _ _ _ CF) as (d' & RL' & M & _). rewrite RL in RL'. injection RL' as <-.
    assert (I : In (KStr r) (map fst d)) by (apply in_map_iff; exists (KStr r, x); auto). rewrite M in I. apply in_map_iff in I as (r' & E & I). injection E as <-. exact I. }
  assert (SH : forall col, getregional mo (i_store inst) "COACCH" col r = shipped coacch_map col r).
  { intros col. exact (shipped_store o bundled mo uf sp c user inst d "COACCH" col r H eq_refl DU DI PM RL NO (or_intror eq_refl) (RS _ R)). }
  exists r. split; [exact R|].
  pose proof harmed_checked as K. rewrite forallb_forall in K. specialize (K _ HR). unfold harmed in K.
  destruct (shipped coacch_map "NoSLR_form" r) as [[| | | |s| |]|] eqn:EF; try discriminate K.
  apply Bool.andb_true_iff in K as [K K5]. apply Bool.andb_true_iff in K as [K K4]. apply Bool.andb_true_iff in K as [K K3]. apply Bool.andb_true_iff in K as [K1 K2].
  rewrite forallb_forall in K4, K5. apply Bool.negb_true_iff in K1.
  destruct (quantile_value _ _ _ _ _ A PQ) as (q & Q1 & Q2).
  destruct (lookup_scalar _ _ _ _ _ ["economics"; "damages"; "coacch_slr_withadapt"] A ltac:(vm_compute; reflexivity)) as (ad & AD & _).
  destruct (combined_dec (i_params inst)) as [CB|NB].
  - destruct (iu_combined _ _ _ _ IU CB q _ Q1 (ex_intro _ ad (conj AD eq_refl))) as (_ & B2 & F). destruct (F r R) as (F1 & _ & F3 & _).
    assert (I : In (if py_truth ad then "Ad" else "NoAd") ["Ad"; "NoAd"]) by (destruct (py_truth ad); cbn; auto).
    specialize (K5 _ I). rewrite forallb_forall in K5. specialize (K5 _ Q2). apply positive_q_ok in K5 as (v & y & V1 & V2 & V3).
    apply quadratic_grows; [rewrite F1; reflexivity|rewrite F1; reflexivity|exact (SC DM)|rewrite F3; lra|].
    rewrite (B2 r v (Q2R y) R); [exact V3|rewrite SH; exact V1|exact V2].
  - destruct (iu_noslr _ _ _ _ IU DM NB q Q1) as (N1 & _ & N3 & _ & N5).
    specialize (K4 _ Q2). apply positive_q_ok in K3 as (v & y & V1 & V2 & V3). apply positive_q_ok in K4 as (v' & y' & V1' & V2' & V3').
    assert (EF' : d_form (dmg_noslr p) r = s) by (apply (N1 r s R); rewrite SH; exact EF).
    apply quadratic_grows; [rewrite EF'; exact K1|rewrite EF'; exact K2|exact (SC DM)| |].
    + rewrite (N5 r v' (Q2R y') R); [exact V3'|rewrite SH; exact V1'|exact V2'].
    + rewrite (N3 r v (Q2R y) R); [exact V3|rewrite SH; exact V1|exact V2].
Qed.

(** With the shipped files, whatever was constructed before: a well-posed accepted configuration (real numbers, a horizon within 2010-2200, some
    of the 26 regions, depreciation below 1) whose model is built from positive baselines and whose constraints can be met has an optimal plan. *)
Lemma C67_shipped_optimum_exists_pf : forall o mo uf sp h user raw params tree d start stop,
  accepted o user raw params tree -> default_inputs user -> plain_quantities raw -> real_numbers params -> (forall name, ~ customised params name) ->
  lookup params ["regions"] = Some (VDict d) -> d <> [] -> no_own_values d -> (forall k x, In (k, x) d -> exists r, k = KStr r /\ In r image_regions) ->
  number_at params ["time"; "start"] start -> number_at params ["time"; "end"] stop -> (2010 <= start)%Q -> (start <= stop)%Q -> (stop <= 2200)%Q ->
  (forall x, number_in params ["economics"; "GDP"; "depreciation of capital"] x -> x < 1) ->
  prints_quantiles o -> rejects_false o -> (forall l, Permutation l (mo l)) -> units_known uf -> spline_defined sp ->
  (forall disk a, In (disk, a) h -> disk = bundled) -> well_posed o params d ->
  exists inst, construct o bundled mo uf sp (after uf sp h empty_caches) user = Ok inst /\ i_params inst = params /\ (exists p, loads inst p) /\
    forall p, loads inst p -> positive_baselines p -> forall extra n comps, build extra n p = Ok comps ->
      (exists v, feasible p v) -> exists v, optimal p v.
Proof.
  intros o mo uf sp h user raw params tree d start stop A DI PQ RN NC RL DNE NO RK NS NE B1 B2 B3 DK PR RF PM UK SP HH [WA WC].
  destruct (C61_builds_iff_usable_pf o mo uf sp h user raw params tree d start stop A DI PQ RN NC RL DNE NO RK NS NE B1 B2 B3 DK PR RF PM UK SP HH) as (inst & H & PE & LE & K).
  exists inst. split; [exact H|]. split; [exact PE|]. split; [exact LE|]. intros p L PB extra n comps BU F.
  destruct (K p L PB) as (NR & SD & SL & _). assert (DU : distinct_keys user) by (destruct A; assumption). subst params.
  assert (U : usable_choices p) by (apply (C18_builds_iff_usable_pf extra n p NR SD); eauto).
  pose proof (C60_configuration_reaches_model_pf _ _ _ _ _ _ _ _ _ DU H NC L) as CF.
  assert (AL : 0 <= alpha p < 1).
  { split; [|exact (WA _ (cf_alpha _ _ _ CF))].
    pose proof (above_min _ _ _ _ _ ["economics"; "GDP"; "alpha"] 0 _ A ltac:(vm_compute; reflexivity) (cf_alpha _ _ _ CF)) as X. unfold Q2R in X. cbn in X. lra. }
  destruct WC as [CI|(W1 & W2 & W3 & W4 & W5 & W6 & W7 & W8 & r & x & I1 & I2)].
  - apply C67_optimum_exists_pf; auto. pose proof (cf_intensity _ _ _ CF) as X. unfold flag_in in *. congruence.
  - assert (OB : objective p = utility) by (pose proof (text_in_fun _ _ _ _ (cf_objective _ _ _ CF) W1) as E; destruct (objective p); [reflexivity|discriminate E]).
    assert (NT : transfer p = notransfer) by (pose proof (text_in_fun _ _ _ _ (cf_transfer _ _ _ CF) W3) as E; destruct (transfer p); [reflexivity|discriminate E]).
    apply C67_optimum_exists_harm_pf; auto.
    + exact (W7 _ (cf_TCRE _ _ _ CF)).
    + intros E. apply W2. pose proof (cf_welfare _ _ _ CF) as X. rewrite E in X. exact X.
    + split; [exact (W6 _ (cf_sr _ _ _ CF))|]. split; [exact (W4 _ (cf_elasmu _ _ _ CF))|].
      intros E. apply W5; [|exact (cf_aversion _ _ _ CF E)]. pose proof (cf_welfare _ _ _ CF) as X. rewrite E in X. exact X.
    + intros _. assert (RI : forall r, In r (regions p) -> In r image_regions).
      { destruct (cf_regions _ _ _ CF) as (d' & RL' & M & _). rewrite RL in RL'. injection RL' as <-. intros s R.
        assert (I : In (KStr s) (map fst d)) by (rewrite M; apply in_map, R). apply in_map_iff in I as ([k y] & E & I). cbn in E. subst k.
        destruct (RK _ _ I) as (r' & E & R'). injection E as <-. exact R'. }
      apply (harmed_loaded _ _ _ _ _ _ _ _ p r x H DU DI PM RL NO PR NC L RI I1 I2). intros DM. exact (W8 _ (cf_scale _ _ _ CF DM)).
Qed.
