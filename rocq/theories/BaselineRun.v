(** C52 and C67 with the shipped files: the run without climate policy exists, and so does an optimal plan. *)
From Coquelicot Require Import Coquelicot.
From Verif Require Import PyBase NestedDict Parsers Config ConfigDefault ConfigSpec TimeGrid DataStore DataStoreLemmas RegionalParams Instantiate InstFacts InstantiateLemmas
  ConstructFacts BundledData BundledFacts BundledSigns Model ModelFacts ModelSpec ClimateSpec WelfareSpec Build BuildLemmas DefinedFacts ExistSpec ExistLemmas ExistExo
  Loading LoadingLemmas LoadingExist EndToEnd OptimumLemmas.
From Coq Require Import QArith Qreals Permutation Reals Lra Lia.
Import ListNotations.
Open Scope string_scope.
Open Scope list_scope.
Open Scope R_scope.
Set Bullet Behavior "Strict Subproofs".

(** *** Total emissions of all regions, in the file and extrapolated: at most 112 Gt CO2 per year in every decade and scenario *)
Definition shipped_emissions (ssp region : string) : list Q :=
  match select_check ("IMAGE", scenario_of ssp, region, "Emissions|CO2") with Some (_, vs, _) => extended vs | None => [] end.
Definition clip (q : Q) : Q := if Qle_bool q 0 then 0%Q else q.
Definition qsum (l : list Q) : Q := fold_right (fun q a => Qred (q + a)%Q) 0%Q l.
Lemma totals_checked : forallb (fun ssp => (fun tab => forallb (fun j => Qle_bool (qsum (map (fun l => clip (nth j l 0%Q)) tab)) 112000) (seq 0 25))
  (map (shipped_emissions ssp) image_regions)) ssps = true.
Proof. vm_compute. reflexivity. Qed.
Lemma qsum_R (f : string -> list Q) j rs : Q2R (qsum (map (fun l => clip (nth j l 0%Q)) (map f rs))) = Rsum (fun r => Q2R (clip (nth j (f r) 0%Q))) rs.
Proof.
  induction rs as [|r rs IH]; [unfold Q2R; cbn; lra|]. cbn [map qsum fold_right]. fold (qsum (map (fun l => clip (nth j l 0%Q)) (map f rs))).
  rewrite Q2R_Qred, Q2R_plus, IH. reflexivity.
Qed.
Lemma clip_ge q : Q2R q <= Q2R (clip q) /\ 0 <= Q2R (clip q).
Proof.
  assert (Z : Q2R 0 = 0) by (unfold Q2R; cbn; lra). unfold clip. rewrite Qle_bool_R, Z. destruct (Rle_dec (Q2R q) 0); rewrite ?Z; lra.
Qed.
Lemma Rsum_app f l l' : Rsum f (l ++ l') = Rsum f l + Rsum f l'.
Proof. induction l as [|a l IH]; cbn [app]; [rewrite Rsum_nil; ring|rewrite !Rsum_cons, IH; ring]. Qed.
Lemma Rsum_incl f : (forall r, 0 <= f r) -> forall l L, NoDup l -> incl l L -> Rsum f l <= Rsum f L.
Proof.
  intros P. induction l as [|a l IH]; intros L N I; [rewrite Rsum_nil; apply Rsum_nonneg; auto|].
  inversion N as [|? ? NA NL]; subst. destruct (in_split a L (I a (or_introl eq_refl))) as (L1 & L2 & ->).
  rewrite Rsum_cons, Rsum_app, Rsum_cons. assert (X : Rsum f l <= Rsum f (L1 ++ L2)).
  { apply IH; [exact NL|]. intros r R. specialize (I r (or_intror R)). apply in_app_iff in I. apply in_app_iff. destruct I as [I|[I|I]]; auto. subst r. contradiction. }
  rewrite Rsum_app in X. lra.
Qed.
Lemma total_bound ssp rs j : In ssp ssps -> (j < 25)%nat -> NoDup rs -> incl rs image_regions -> Rsum (fun r => Q2R (nth j (shipped_emissions ssp r) 0%Q)) rs <= 112000.
Proof.
  intros S J N I. pose proof totals_checked as K. rewrite forallb_forall in K. specialize (K _ S). cbv beta in K. rewrite forallb_forall in K.
  specialize (K j ltac:(apply in_seq; lia)). apply Qle_bool_Q2R in K. rewrite qsum_R in K. replace (Q2R 112000) with 112000 in K by (unfold Q2R; cbn; lra).
  apply Rle_trans with (Rsum (fun r => Q2R (clip (nth j (shipped_emissions ssp r) 0%Q))) rs); [apply Rsum_le; intros r _; apply clip_ge|].
  apply Rle_trans with (2 := K). apply Rsum_incl; [intros r; apply clip_ge|exact N|exact I].
Qed.

(** *** The loaded model *)
Lemma baseline_loaded_both o mo uf sp h user inst ssp p : distinct_keys user -> default_inputs user -> (forall disk a, In (disk, a) h -> disk = bundled) ->
  through_points sp -> positive_units uf -> uf "Mt CO2/yr" "emissionsrate_unit" = Ok (1/1000) ->
  construct o bundled mo uf sp (after uf sp h empty_caches) user = Ok inst -> (forall name, ~ customised (i_params inst) name) -> loads inst p -> NoDup (regions p) ->
  lookup (i_params inst) ["SSP"] = Some (VStr ssp) -> a_start (i_args inst) <= a_end (i_args inst) -> (forall r, In r (regions p) -> In r image_regions) -> positive_decades ssp p ->
  forall t, (t <= tf p)%nat -> (0 <= total p (baseline_emissions p t) <= 112) /\ forall r, In r (regions p) -> 0 < baseline_emissions p t r.
Proof.
  intros DU DI HH TP PU UE H NC L ND LS SE RI PD t T.
  destruct (regions p) as [|r0 rs0] eqn:ER; [unfold total; rewrite ER, Rsum_nil; split; [lra|intros r []]|]. rewrite <- ER in *.
  assert (R0 : In r0 (regions p)) by (rewrite ER; left; reflexivity).
  destruct (grid_loaded _ _ _ _ _ _ _ _ _ H NC L) as (G1 & G2 & RG & TF). destruct (PD t r0 T R0) as (j & J & Y & _).
  assert (YJ : forall r, In r (regions p) -> negative_at ssp r (decade j) = false).
  { intros r R. destruct (PD t r T R) as (j' & J' & Y' & N). rewrite Y in Y'. apply eq_IZR in Y'. rewrite Y'. exact N. }
  unfold year in Y. rewrite G1, G2 in Y.
  assert (VAL : forall r, In r (regions p) -> In ssp ssps /\ baseline_emissions p t r = 1/1000 * Q2R (nth j (shipped_emissions ssp r) 0%Q) /\ 0 < baseline_emissions p t r).
  { intros r R. pose proof R as R'. rewrite RG in R'.
    destruct (bundled_values _ _ _ _ _ _ _ _ DU DI HH TP PU H LS SE t r j (TF t T) R' (RI r R) J Y "baseline_emissions" "emissions" "Emissions|CO2" "emissionsrate_unit" "Mt CO2/yr")
      as (l & x & ys & vs & k & L1 & X1 & S3 & SC & UF & KP & _ & E); [cbn; auto|apply NC|].
    rewrite UE in UF. apply Ok_inj in UF. subst k. destruct (ld_emissions _ _ L) as (l' & L2 & F). unfold data_of in L2. rewrite L2 in L1. injection L1 as <-.
    split; [exact S3|]. split; [rewrite (F _ _ _ X1), E; unfold shipped_emissions; rewrite SC; reflexivity|].
    destruct (C58_bundled_signs_pf _ _ _ _ _ _ _ _ DU DI HH TP PU H LS SE t r j (TF t T) R' (RI r R) J Y) as [_ K2]. rewrite (YJ r R) in K2.
    destruct (K2 (NC _)) as (l2 & x2 & A2 & I2 & P2). rewrite L2 in A2. injection A2 as <-. rewrite (F _ _ _ I2). exact P2. }
  split; [|intros r R; apply (VAL r R)]. split; [apply Rsum_nonneg; intros r R; apply Rlt_le, (VAL r R)|].
  unfold total. rewrite (Rsum_ext _ (fun r => 1/1000 * Q2R (nth j (shipped_emissions ssp r) 0%Q))) by (intros r R; apply (VAL r R)).
  rewrite Rsum_scal. pose proof (total_bound ssp (regions p) j (proj1 (VAL r0 R0)) J ND RI). lra.
Qed.
Lemma cumulative_bound p : 0 < dt p -> (forall t, (t <= tf p)%nat -> 0 <= total p (baseline_emissions p t) <= 112) ->
  forall t, (t <= tf p)%nat -> 0 <= baseline_cumulative p t <= 112 * (INR t * dt p).
Proof.
  intros D B. induction t as [|t IH]; intros T; [cbn; lra|]. specialize (IH ltac:(lia)). cbn [baseline_cumulative]. rewrite S_INR.
  pose proof (B t ltac:(lia)) as B1. pose proof (B (S t) T) as B2. destruct (cum_trapz p); nra.
Qed.

(** What the shipped files guarantee about the loaded model. *)
Lemma shipped_model_full : forall o mo uf sp h user raw params tree d start stop,
  accepted o user raw params tree -> default_inputs user -> plain_quantities raw -> real_numbers params -> (forall name, ~ customised params name) ->
  lookup params ["regions"] = Some (VDict d) -> d <> [] -> no_own_values d -> (forall k x, In (k, x) d -> exists r, k = KStr r /\ In r image_regions) ->
  number_at params ["time"; "start"] start -> number_at params ["time"; "end"] stop -> (2010 <= start)%Q -> (start <= stop)%Q -> (stop <= 2200)%Q ->
  (forall x, number_in params ["economics"; "GDP"; "depreciation of capital"] x -> x < 1) -> whole_decades params start -> no_negative_emissions params stop ->
  prints_quantiles o -> rejects_false o -> (forall l, Permutation l (mo l)) -> units_known uf -> positive_units uf -> spline_defined sp -> through_points sp ->
  uf "Mt CO2/yr" "emissionsrate_unit" = Ok (1/1000) ->
  (forall disk a, In (disk, a) h -> disk = bundled) ->
  exists inst, construct o bundled mo uf sp (after uf sp h empty_caches) user = Ok inst /\ i_params inst = params /\ (exists p, loads inst p) /\
    forall p, loads inst p -> usable_configuration o params (Q2R start) (Q2R stop) (dt p) -> alpha p < 1 ->
      ((exists ssp, lookup params ["SSP"] = Some (VStr ssp) /\ positive_decades ssp p) /\ a_start (i_args inst) <= a_end (i_args inst) /\ 0 < dt p <= 20) /\
      configured o params p /\ numeric_ranges p /\ sound_data p /\ usable_choices p /\ slr_logistic_ok p /\ 0 <= alpha p < 1 /\
      (forall r, In r (regions p) -> In r image_regions) /\
      (forall t r, model_step p t -> In r (regions p) -> 0 < baseline_emissions p t r) /\
      forall t, model_step p t -> 0 <= baseline_cumulative p t <= 112 * (INR (tf p) * dt p).
Proof.
  intros o mo uf sp h user raw params tree d start stop A DI PQ RN NC RL DNE NO RK NS NE B1 B2 B3 DK WD NN PR RF PM UK PU SP TP UE HH.
  destruct (C61_builds_iff_usable_pf o mo uf sp h user raw params tree d start stop A DI PQ RN NC RL DNE NO RK NS NE B1 B2 B3 DK PR RF PM UK SP HH) as (inst & H & PE & LE & K).
  exists inst. split; [exact H|]. split; [exact PE|]. split; [exact LE|]. intros p L UC AL1.
  assert (DU : distinct_keys user) by (destruct A; assumption). subst params.
  pose proof (C60_configuration_reaches_model_pf _ _ _ _ _ _ _ _ _ DU H NC L) as CF.
  destruct (bounded_number _ _ _ _ _ ["time"; "dt"] _ _ A ltac:(vm_compute; reflexivity)) as (dv & DL & DB).
  assert (DT : 0 < dt p <= 20).
  { destruct (cf_dt _ _ _ CF) as (v & V & N). rewrite DL in V. injection V as <-. destruct DB as [->|(q & Q1 & Q2 & Q3)]; [discriminate N|].
    rewrite (number_number _ _ Q1) in N. apply Ok_inj in N. rewrite N. apply Qle_Rle in Q2, Q3. unfold Q2R in Q2 at 1, Q3 at 2. cbn in Q2, Q3. lra. }
  destruct (ssp_value _ _ _ _ _ A) as (ssp & S1 & _).
  assert (NI : forall path q, number_at (i_params inst) path q -> number_in (i_params inst) path (Q2R q)) by (intros path q (v & LL & N); exists v; split; [exact LL|apply number_number, N]).
  destruct (cf_regions _ _ _ CF) as (d' & RL' & M & ND). rewrite RL in RL'. injection RL' as <-.
  assert (SE : a_start (i_args inst) <= a_end (i_args inst)).
  { pose proof (construct_inv _ _ _ _ _ _ _ _ H) as (raw' & rs & ch' & decls' & sv & dv' & _ & _ & _ & _ & _ & _ & _ & SA & _).
    assert (YN : forall v x, year_number v = Ok x -> number v = Ok x) by (intros [| | |[]| | |] x; cbn; try discriminate; auto).
    assert (GG : number_in (i_params inst) ["time"; "start"] (a_start (i_args inst)) /\ number_in (i_params inst) ["time"; "end"] (a_end (i_args inst))).
    { unfold store_args_of in SA. apply bind_ok in SA as (v1 & L1 & SA). apply bind_ok in SA as (s & YS & SA). apply bind_ok in SA as (v2 & L2 & SA). apply bind_ok in SA as (e & YE & SA).
      apply bind_ok in SA as (v3 & L3 & SA). apply bind_ok in SA as (dd & YD & SA). apply bind_ok in SA as (vs & VS & SA). apply bind_ok in SA as (vs2 & VS2 & SA). apply bind_ok in SA as (vs3 & VS3 & SA).
      apply Ok_inj in SA. rewrite SA. cbn [a_start a_end]. apply config_lookup in L1, L2. unfold number_in. split; [exists v1; split; [exact L1|exact (YN _ _ YS)]|exists v2; split; [exact L2|exact (YN _ _ YE)]]. }
    destruct GG as [X1 X2]. rewrite (number_in_fun _ _ _ _ X1 (NI _ _ NS)), (number_in_fun _ _ _ _ X2 (NI _ _ NE)). apply Qle_Rle, B2. }
  assert (RI : forall r, In r (regions p) -> In r image_regions).
  { intros r R. assert (I : In (KStr r) (map fst d)) by (rewrite M; apply in_map, R). apply in_map_iff in I as ([kk x] & E & I). cbn in E. subst kk.
    destruct (RK _ _ I) as (r' & E & R'). injection E as <-. exact R'. }
  pose proof (C61_decades _ _ _ _ _ _ CF NS NE B1 B2 B3 DT WD NN S1) as PD.
  assert (RNE : regions p <> []) by (intros X; rewrite X in M; apply DNE; destruct d; [reflexivity|discriminate M]).
  pose proof (C61_decade_baselines_pf o mo uf sp h user inst ssp p DU DI HH TP PU H NC L S1 SE (proj1 DT) RNE RI PD) as PB.
  destruct (K p L PB) as (NR & SD & SL & BU).
  assert (U : usable_choices p) by (apply (C18_builds_iff_usable_pf (fun _ => 0%nat) 0%nat p NR SD); apply BU, UC).
  assert (AL : 0 <= alpha p < 1).
  { split; [|exact AL1]. pose proof (above_min _ _ _ _ _ ["economics"; "GDP"; "alpha"] 0 _ A ltac:(vm_compute; reflexivity) (cf_alpha _ _ _ CF)) as X. unfold Q2R in X. cbn in X. lra. }
  pose proof (baseline_loaded_both _ _ _ _ _ _ _ _ p DU DI HH TP PU UE H NC L ND S1 SE RI PD) as BL.
  pose proof (cumulative_bound p (proj1 DT) (fun t T => proj1 (BL t T))) as CB.
  split; [split; [exists ssp; split; [exact S1|exact PD]|split; [exact SE|exact DT]]|].
  split; [exact CF|]. split; [exact NR|]. split; [exact SD|]. split; [exact U|]. split; [exact SL|]. split; [exact AL|]. split; [exact RI|].
  split; [intros t r T R; apply (BL t T); exact R|]. intros t T. destruct (CB t T) as [C1 C2]. split; [exact C1|].
  apply Rle_trans with (1 := C2). apply Rmult_le_compat_l; [lra|]. apply Rmult_le_compat_r; [lra|]. apply le_INR, T.
Qed.
Lemma shipped_model : forall o mo uf sp h user raw params tree d start stop,
  accepted o user raw params tree -> default_inputs user -> plain_quantities raw -> real_numbers params -> (forall name, ~ customised params name) ->
  lookup params ["regions"] = Some (VDict d) -> d <> [] -> no_own_values d -> (forall k x, In (k, x) d -> exists r, k = KStr r /\ In r image_regions) ->
  number_at params ["time"; "start"] start -> number_at params ["time"; "end"] stop -> (2010 <= start)%Q -> (start <= stop)%Q -> (stop <= 2200)%Q ->
  (forall x, number_in params ["economics"; "GDP"; "depreciation of capital"] x -> x < 1) -> whole_decades params start -> no_negative_emissions params stop ->
  prints_quantiles o -> rejects_false o -> (forall l, Permutation l (mo l)) -> units_known uf -> positive_units uf -> spline_defined sp -> through_points sp ->
  uf "Mt CO2/yr" "emissionsrate_unit" = Ok (1/1000) ->
  (forall disk a, In (disk, a) h -> disk = bundled) ->
  exists inst, construct o bundled mo uf sp (after uf sp h empty_caches) user = Ok inst /\ i_params inst = params /\ (exists p, loads inst p) /\
    forall p, loads inst p -> usable_configuration o params (Q2R start) (Q2R stop) (dt p) -> alpha p < 1 ->
      configured o params p /\ numeric_ranges p /\ sound_data p /\ usable_choices p /\ slr_logistic_ok p /\ 0 <= alpha p < 1 /\
      (forall r, In r (regions p) -> In r image_regions) /\
      (forall t r, model_step p t -> In r (regions p) -> 0 < baseline_emissions p t r) /\
      forall t, model_step p t -> 0 <= baseline_cumulative p t <= 112 * (INR (tf p) * dt p).
Proof.
  intros o mo uf sp h user raw params tree d start stop A DI PQ RN NC RL DNE NO RK NS NE B1 B2 B3 DK WD NN PR RF PM UK PU SP TP UE HH.
  destruct (shipped_model_full o mo uf sp h user raw params tree d start stop A DI PQ RN NC RL DNE NO RK NS NE B1 B2 B3 DK WD NN PR RF PM UK PU SP TP UE HH) as (inst & H & PE & LE & K).
  exists inst. split; [exact H|]. split; [exact PE|]. split; [exact LE|]. intros p L UC AL. destruct (K p L UC AL) as [_ Q]. exact Q.
Qed.

(** Horizons in whole decades (C61), emissions that do not follow income, no policy limits, and no damages (or sea-level damages inside their
    bounds): the constraints can be met without any abatement, with exactly the shipped emissions, and an optimal plan exists. Nothing about the
    model is left to assume. *)
Lemma C67_shipped_baseline_pf : forall o mo uf sp h user raw params tree d start stop,
  accepted o user raw params tree -> default_inputs user -> plain_quantities raw -> real_numbers params -> (forall name, ~ customised params name) ->
  lookup params ["regions"] = Some (VDict d) -> d <> [] -> no_own_values d -> (forall k x, In (k, x) d -> exists r, k = KStr r /\ In r image_regions) ->
  number_at params ["time"; "start"] start -> number_at params ["time"; "end"] stop -> (2010 <= start)%Q -> (start <= stop)%Q -> (stop <= 2200)%Q ->
  (forall x, number_in params ["economics"; "GDP"; "depreciation of capital"] x -> x < 1) -> whole_decades params start -> no_negative_emissions params stop ->
  prints_quantiles o -> rejects_false o -> (forall l, Permutation l (mo l)) -> units_known uf -> positive_units uf -> spline_defined sp -> through_points sp ->
  uf "Mt CO2/yr" "emissionsrate_unit" = Ok (1/1000) ->
  (forall disk a, In (disk, a) h -> disk = bundled) ->
  exists inst, construct o bundled mo uf sp (after uf sp h empty_caches) user = Ok inst /\ i_params inst = params /\ (exists p, loads inst p) /\
    forall p Tmax, loads inst p -> usable_configuration o params (Q2R start) (Q2R stop) (dt p) ->
      use_carbon_intensity p = false -> no_limits p -> alpha p < 1 -> 0 <= MAC_gamma p -> 0 <= T0 p -> 0 <= TCRE p ->
      T0 p + TCRE p * (112 * (INR (tf p) * dt p)) <= Tmax -> dt p * (Tmax + 1) < 325 ->
      (dmg_module p = COACCH -> forall r x y, In r (regions p) -> T0 p <= x <= Tmax -> 0 <= y <= sea_level_ceiling p Tmax ->
         -5/10 <= damages_at p r (T0 p) y <= 7/10 /\ (transfer p = globaldamagepool -> 0 <= damages_at p r x y)) ->
      (exists v, feasible p v /\ forall t r, model_step p t -> In r (regions p) ->
         relative_abatement v t r = 0 /\ mitigation_costs v t r = 0 /\ regional_emissions v t r = baseline_emissions p t r) /\
      exists v, optimal p v.
Proof.
  intros o mo uf sp h user raw params tree d start stop A DI PQ RN NC RL DNE NO RK NS NE B1 B2 B3 DK WD NN PR RF PM UK PU SP TP UE HH.
  destruct (shipped_model o mo uf sp h user raw params tree d start stop A DI PQ RN NC RL DNE NO RK NS NE B1 B2 B3 DK WD NN PR RF PM UK PU SP TP UE HH) as (inst & H & PE & LE & K).
  exists inst. split; [exact H|]. split; [exact PE|]. split; [exact LE|]. intros p Tmax L UC CI NL AL1 MG HT HC TM DT5 DMG.
  destruct (K p L UC AL1) as (CF & NR & SD & U & SL & AL & _ & BP & CB).
  destruct (C52_baseline_run_exists_pf p Tmax NR SD U SL AL CI NL (fun _ t r T R => Rlt_le _ _ (BP t r T R)) MG HT HC) as (v & F & E & _).
  - intros t T. destruct (CB t T) as [C1 C2]. split; [exact C1|]. apply Rle_trans with (2 := TM). apply Rplus_le_compat_l, Rmult_le_compat_l; [exact HC|exact C2].
  - exact DT5.
  - exact DMG.
  - split; [exists v; split; [exact F|exact E]|]. apply C67_optimum_exists_pf; auto. exists v. exact F.
Qed.
