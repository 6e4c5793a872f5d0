(** C69 with the shipped files: growth of the shipped GDP baselines, and the default emissions (following the model's own GDP). *)
From Coquelicot Require Import Coquelicot.
From Verif Require Import PyBase NestedDict Parsers Config ConfigDefault ConfigSpec TimeGrid DataStore DataStoreLemmas RegionalParams RegionalParamsLemmas Instantiate InstFacts InstantiateLemmas
  ConstructFacts BundledData BundledFacts BundledSigns Model ModelFacts ModelSpec SoftFacts ClimateSpec WelfareSpec Build BuildLemmas DefinedFacts EconLemmas ExistSpec ExistLemmas ExistExo
  Loading LoadingLemmas LoadingExist EndToEnd DeterminedData DominanceSpec DominanceLemmas BaselineRun DominanceConfig DriftSpec DriftLemmas DriftExist.
From Coq Require Import QArith Qreals Permutation Reals Lra Lia.
Import ListNotations.
Open Scope string_scope.
Open Scope list_scope.
Open Scope R_scope.
Set Bullet Behavior "Strict Subproofs".

Definition shipped_GDP (ssp region : string) : list Q :=
  match select_check ("IMAGE", scenario_of ssp, region, "GDP|PPP") with Some (_, vs, _) => extended vs | None => [] end.
(** From decade to decade the shipped (and extrapolated) GDP of every region grows by a factor between 0.888 and 2.383; it is never below 266 billion. *)
Definition growth_ok (l : list Q) : bool :=
  forallb (fun j => (Qle_bool ((888#1000) * nth j l 0) (nth (S j) l 0) && Qle_bool (nth (S j) l 0) ((2383#1000) * nth j l 0))%Q) (seq 0 24) && forallb (fun j => Qle_bool 266 (nth j l 0%Q)) (seq 0 25).
Lemma growth_checked : forallb (fun ssp => forallb (fun r => growth_ok (shipped_GDP ssp r)) image_regions) ssps = true.
Proof. vm_compute. reflexivity. Qed.
Lemma factors_checked : forallb (fun r => is_q (shipped (Direct economics) "init_capital_factor" r) (fun q => Qle_bool q (27#10))) image_regions = true.
Proof. vm_compute. reflexivity. Qed.
Local Opaque coacch image_pairs economics mac mortality container_get outer_merge shipped_GDP.

Lemma Q2R_frac a b : Q2R (a # b) = IZR a / IZR (Zpos b).
Proof. reflexivity. Qed.
Lemma growth_nth ssp r j : In ssp ssps -> In r image_regions -> (j < 24)%nat ->
  888/1000 * Q2R (nth j (shipped_GDP ssp r) 0%Q) <= Q2R (nth (S j) (shipped_GDP ssp r) 0%Q) <= 2383/1000 * Q2R (nth j (shipped_GDP ssp r) 0%Q).
Proof.
  intros S R J. pose proof growth_checked as G. rewrite forallb_forall in G. specialize (G _ S). rewrite forallb_forall in G. specialize (G _ R).
  apply andb_prop in G as [G _]. rewrite forallb_forall in G. specialize (G j ltac:(apply in_seq; lia)). apply andb_prop in G as [G1 G2].
  apply Qle_bool_Q2R in G1, G2. rewrite Q2R_mult, Q2R_frac in G1, G2. lra.
Qed.
Lemma floor_nth ssp r j : In ssp ssps -> In r image_regions -> (j < 25)%nat -> 266 <= Q2R (nth j (shipped_GDP ssp r) 0%Q).
Proof.
  intros S R J. pose proof growth_checked as G. rewrite forallb_forall in G. specialize (G _ S). rewrite forallb_forall in G. specialize (G _ R).
  apply andb_prop in G as [_ G]. rewrite forallb_forall in G. specialize (G j ltac:(apply in_seq; lia)).
  apply Qle_bool_Q2R in G. change 266%Q with (inject_Z 266) in G. rewrite Q2R_inject in G. exact G.
Qed.
Lemma growth_steps ssp r k : In ssp ssps -> In r image_regions -> forall j, (j + k < 25)%nat ->
  (888/1000) ^ k * Q2R (nth j (shipped_GDP ssp r) 0%Q) <= Q2R (nth (j + k) (shipped_GDP ssp r) 0%Q) <= (2383/1000) ^ k * Q2R (nth j (shipped_GDP ssp r) 0%Q).
Proof.
  intros S R. induction k as [|k IH]; intros j J; [rewrite Nat.add_0_r; cbn [pow]; lra|].
  specialize (IH j ltac:(lia)). pose proof (growth_nth ssp r (j + k) S R ltac:(lia)) as G. rewrite Nat.add_succ_r. cbn [pow]. lra.
Qed.

(** Shipped GDP in the loaded model. *)
Lemma GDP_loaded o mo uf sp h user inst ssp p : distinct_keys user -> default_inputs user -> (forall disk a, In (disk, a) h -> disk = bundled) ->
  through_points sp -> positive_units uf -> uf "billion US$2005/yr" "currency_unit" = Ok (1/1000) ->
  construct o bundled mo uf sp (after uf sp h empty_caches) user = Ok inst -> (forall name, ~ customised (i_params inst) name) -> loads inst p ->
  lookup (i_params inst) ["SSP"] = Some (VStr ssp) -> a_start (i_args inst) <= a_end (i_args inst) -> (forall r, In r (regions p) -> In r image_regions) ->
  forall t r j, (t <= tf p)%nat -> In r (regions p) -> (j < 25)%nat -> year p t = IZR (decade j) ->
    In ssp ssps /\ baseline_GDP p t r = 1/1000 * Q2R (nth j (shipped_GDP ssp r) 0%Q).
Proof.
  intros DU DI HH TP PU UG H NC L LS SE RI t r j T R J Y.
  destruct (grid_loaded _ _ _ _ _ _ _ _ _ H NC L) as (G1 & G2 & RG & TF). unfold year in Y. rewrite G1, G2 in Y.
  pose proof R as R'. rewrite RG in R'.
  destruct (bundled_values _ _ _ _ _ _ _ _ DU DI HH TP PU H LS SE t r j (TF t T) R' (RI r R) J Y "baseline_GDP" "GDP" "GDP|PPP" "currency_unit" "billion US$2005/yr")
    as (l & x & ys & vs & k & L1 & X1 & S3 & SC & UF & KP & _ & E); [cbn; auto|apply NC|].
  rewrite UG in UF. apply Ok_inj in UF. subst k. destruct (ld_GDP _ _ L) as (l' & L2 & F). unfold data_of in L2. rewrite L2 in L1. injection L1 as <-.
  split; [exact S3|]. rewrite (F _ _ _ X1), E. Local Transparent shipped_GDP. unfold shipped_GDP. rewrite SC. reflexivity.
Qed.
Local Opaque shipped_GDP.

Lemma factor_bound o mo uf sp c user inst d p : construct o bundled mo uf sp c user = Ok inst -> distinct_keys user -> default_inputs user ->
  (forall l, Permutation l (mo l)) -> lookup (i_params inst) ["regions"] = Some (VDict d) -> no_own_values d ->
  prints_quantiles o -> (forall name, ~ customised (i_params inst) name) -> loads inst p -> (forall r, In r (regions p) -> In r image_regions) ->
  forall r, In r (regions p) -> init_capital_factor p r <= 27/10.
Proof.
  intros H DU DI PM RL NO PQ NC L RS r R.
  destruct (acc _ _ _ _ _ _ _ _ DU H) as (raw & A).
  assert (PC : plain_columns o (i_params inst)) by (apply (bundled_columns _ _ _ _ _ mo [] A PQ PM); intros r' []).
  pose proof (C60_inputs_reach_model_pf _ _ _ _ _ _ _ _ _ DU H NC PC L) as IU.
  pose proof factors_checked as M. rewrite forallb_forall in M. specialize (M _ (RS _ R)). apply is_q_ok in M as (x & q & E & N & Q).
  rewrite (iu_capital _ _ _ _ IU r x (Q2R q) R).
  - apply Qle_bool_Q2R in Q. rewrite Q2R_frac in Q. lra.
  - rewrite (shipped_store _ _ _ _ _ _ _ _ _ _ _ _ H eq_refl DU DI PM RL NO (or_introl (conj eq_refl eq_refl)) (RS _ R)). exact E.
  - apply number_number, N.
Qed.

Lemma smoothing_bound p r eps g : 0 < dt p -> 0 <= dk p < 1 -> 0 <= sr p -> positive_data p -> In r (regions p) ->
  0 <= eps -> (forall t, (t <= tf p)%nat -> g <= baseline_GDP p t r) -> 134/1000 <= eps * (dt p * sr p * g) -> smoothing_at_most p r eps.
Proof.
  intros Hdt Hk Hs PD Hr He G E. split; [exact He|]. intros [|t] Ht; [lia|].
  pose proof (Kc_pos p r Hr Hdt Hk Hs PD t ltac:(unfold model_step; lia)) as KP. pose proof (Kc_pos p r Hr Hdt Hk Hs PD (S t) ltac:(unfold model_step; lia)) as KQ.
  destruct (surv_range p Hdt Hk) as [_ [S0 S1]]. pose proof (smin_gap 10 ltac:(lra) (calibration_capital p (S t) r)) as SG. rewrite Rmax_left in SG by lra.
  assert (PI3 : 3 < PI) by (pose proof PI2_3_2; unfold PI2 in *; lra).
  assert (X : 1 / (25 / 10 * PI) <= 134/1000).
  { apply Rmult_le_reg_r with (25 / 10 * PI); [lra|]. unfold Rdiv at 1. rewrite Rmult_assoc, Rinv_l by lra. lra. }
  assert (K : dt p * sr p * g <= calibration_capital p (S t) r).
  { cbn [calibration_capital]. pose proof (G t ltac:(lia)) as G1.
    assert (0 <= survival p * calibration_capital p t r) by (apply Rmult_le_pos; lra).
    assert (dt p * sr p * g <= dt p * sr p * baseline_GDP p t r) by (apply Rmult_le_compat_l; [apply Rmult_le_pos; lra|exact G1]). lra. }
  assert (eps * (dt p * sr p * g) <= eps * calibration_capital p (S t) r) by (apply Rmult_le_compat_l; auto). lra.
Qed.

(** Growth of the shipped GDP baselines between two model years, whatever the scenario, the region and the (whole-decade) horizon. *)
Lemma growth_shipped o mo uf sp h user inst ssp p : distinct_keys user -> default_inputs user -> (forall disk a, In (disk, a) h -> disk = bundled) ->
  through_points sp -> positive_units uf -> uf "billion US$2005/yr" "currency_unit" = Ok (1/1000) ->
  construct o bundled mo uf sp (after uf sp h empty_caches) user = Ok inst -> (forall name, ~ customised (i_params inst) name) -> loads inst p ->
  lookup (i_params inst) ["SSP"] = Some (VStr ssp) -> a_start (i_args inst) <= a_end (i_args inst) -> (forall r, In r (regions p) -> In r image_regions) ->
  0 < dt p -> positive_decades ssp p -> forall r, In r (regions p) ->
  growth_between p r (Rpower (888/1000) (dt p / 10)) (Rpower (2383/1000) (dt p / 10)) /\ forall t, (t <= tf p)%nat -> 266/1000 <= baseline_GDP p t r.
Proof.
  intros DU DI HH TP PU UG H NC L LS SE RI D0 PD r R.
  pose proof (GDP_loaded _ _ _ _ _ _ _ _ _ DU DI HH TP PU UG H NC L LS SE RI) as GL.
  split.
  - intros t T. destruct (PD t r ltac:(lia) R) as (j & J & Y & _). destruct (PD (S t) r T R) as (j' & J' & Y' & _).
    destruct (GL t r j ltac:(lia) R J Y) as [S3 ->]. destruct (GL (S t) r j' T R J' Y') as [_ ->].
    assert (E : dt p = 10 * (INR j' - INR j)).
    { unfold year in Y, Y'. rewrite S_INR in Y'. unfold decade in Y, Y'. rewrite plus_IZR, mult_IZR, <- INR_IZR_INZ in Y, Y'. lra. }
    assert (JJ : (j <= j')%nat) by (apply INR_le; lra).
    set (k := (j' - j)%nat). assert (K : dt p / 10 = INR k) by (unfold k; rewrite minus_INR by exact JJ; lra). rewrite K, !Rpower_pow by lra.
    pose proof (growth_steps ssp r k S3 (RI r R) j ltac:(lia)) as G. replace (j + k)%nat with j' in G by lia. lra.
  - intros t T. destruct (PD t r T R) as (j & J & Y & _). destruct (GL t r j T R J Y) as [S3 ->]. pose proof (floor_nth ssp r j S3 (RI r R) J). lra.
Qed.

(** The shipped files with emissions that follow the model's own GDP (the default): the run without climate policy exists, and when there are no
    damages to avoid it is optimal and every optimal plan abates nothing. *)
Lemma C69_shipped_no_policy_pf : forall o mo uf sp h user raw params tree d start stop,
  accepted o user raw params tree -> default_inputs user -> plain_quantities raw -> real_numbers params -> (forall name, ~ customised params name) ->
  lookup params ["regions"] = Some (VDict d) -> d <> [] -> no_overrides d -> (forall k x, In (k, x) d -> exists r, k = KStr r /\ In r image_regions) ->
  number_at params ["time"; "start"] start -> number_at params ["time"; "end"] stop -> (2010 <= start)%Q -> (start <= stop)%Q -> (stop <= 2200)%Q ->
  (forall x, number_in params ["economics"; "GDP"; "depreciation of capital"] x -> x < 1) -> whole_decades params start -> no_negative_emissions params stop ->
  prints_quantiles o -> rejects_false o -> (forall l, Permutation l (mo l)) -> units_known uf -> positive_units uf -> spline_defined sp -> through_points sp ->
  uf "Mt CO2/yr" "emissionsrate_unit" = Ok (1/1000) -> uf "billion US$2005/yr" "currency_unit" = Ok (1/1000) ->
  (forall disk a, In (disk, a) h -> disk = bundled) ->
  exists inst, construct o bundled mo uf sp (after uf sp h empty_caches) user = Ok inst /\ i_params inst = params /\ (exists p, loads inst p) /\
    forall p eps kap c Tmax, loads inst p -> usable_configuration o params (Q2R start) (Q2R stop) (dt p) ->
      use_carbon_intensity p = true -> no_limits p -> alpha p < 1 -> 0 < MAC_gamma p -> 0 <= T0 p -> 0 <= TCRE p ->
      shipped_growth_allows p eps kap c ->
      let hi := (1 + eps) * Rpower c (alpha p) in
      T0 p + TCRE p * (hi * (112 * (INR (tf p) * dt p))) <= Tmax -> dt p * (Tmax + 1) < 325 ->
      dmg_module p = nodamage \/ (ignore_damages p = true /\ forall r y, In r (regions p) -> 0 <= y <= sea_level_ceiling p Tmax -> -5/10 <= damages_at p r (T0 p) y <= 7/10) ->
      transfer p = notransfer ->
      let no_abatement v := forall t r, model_step p t -> In r (regions p) -> relative_abatement v t r = 0 /\ mitigation_costs v t r = 0 in
      (exists v, feasible p v /\ no_abatement v /\
         forall t r, (1 <= t <= tf p)%nat -> In r (regions p) -> regional_emissions v t r = baseline v t r /\
           GDP_gross v t r <= hi * baseline_GDP p t r /\ regional_emissions v t r <= hi * baseline_emissions p t r) /\
      (sr p < 1 -> no_damages_counted p -> trade p = notrade -> (exists v, optimal p v /\ no_abatement v) /\ forall v, optimal p v -> no_abatement v).
Proof.
  intros o mo uf sp h user raw params tree d start stop A DI PQ RN NC RL DNE NO RK NS NE B1 B2 B3 DK WD NN PR RF PM UK PU SP TP UE UG HH.
  assert (NO' : no_own_values d).
  { intros k x I. split; [apply (NO _ _ "economics" "init_capital_factor" I); cbn; auto|intros col; apply (NO _ _ "COACCH" col I); cbn; auto]. }
  destruct (shipped_model_full o mo uf sp h user raw params tree d start stop A DI PQ RN NC RL DNE NO' RK NS NE B1 B2 B3 DK WD NN PR RF PM UK PU SP TP UE HH) as (inst & H & PE & LE & K).
  exists inst. split; [exact H|]. split; [exact PE|]. split; [exact LE|].
  intros p eps kap c Tmax L UC CI NL AL1 MG HT HC GA hi TM DT5 DMG NT no_abatement.
  destruct (K p L UC AL1) as (((ssp & S1 & PDc) & SE & DT) & CF & NR & SD & U & SL & AL & RI & BP & CB).
  assert (DU : distinct_keys user) by (destruct A; assumption). subst params.
  assert (MS : forall r, In r (regions p) -> 0 < MAC_scaling p r) by (eapply mac_positive; eauto).
  assert (PD : positive_data p) by apply SD. assert (Hk : 0 <= dk p < 1) by apply NR. assert (Hs : 0 <= sr p) by apply NR.
  pose proof (growth_shipped _ _ _ _ _ _ _ _ _ DU DI HH TP PU UG H NC L S1 SE RI (proj1 DT) PDc) as GS.
  destruct GA as (GA1 & GA2 & GA3 & GA4 & GA5).
  assert (GW1 : forall r, In r (regions p) -> growth_between p r (Rpower (888/1000) (dt p / 10)) (Rpower (2383/1000) (dt p / 10)) /\
     capital_ratio_at_most p r (Rpower (888/1000) (dt p / 10)) kap /\ smoothing_at_most p r eps).
  { intros r R. destruct (GS r R) as [G1 G2]. split; [exact G1|]. split; [|apply smoothing_bound with (266/1000); auto; apply DT].
    split; [|exact GA2]. apply Rle_trans with (2 := GA1). eapply factor_bound; eauto. }
  assert (GW : grows_within p 1 eps c).
  { intros r R. destruct (GW1 r R) as (G1 & G2 & G3). exists (Rpower (888/1000) (dt p / 10)), (Rpower (2383/1000) (dt p / 10)), kap. auto. }
  assert (HI : 0 <= hi) by (unfold hi; apply Rmult_le_pos; [lra|apply Rlt_le, exp_pos]).
  destruct (C69_no_policy_run_exists_pf p 1 eps c Tmax NR SD U SL AL CI NL (fun t r T R => Rlt_le _ _ (BP t r T R)) (fun r R => Rlt_le _ _ (MS r R)) (Rlt_le _ _ MG) HT HC (Rle_refl 1) GW) as (w & F & E & _).
  - intros t T. fold hi. rewrite Rmult_1_l. destruct (CB t T) as [C1 C2]. apply Rle_trans with (2 := TM). apply Rplus_le_compat_l, Rmult_le_compat_l; [exact HC|].
    apply Rmult_le_compat_l; assumption.
  - exact DT5.
  - intros D r x y Hr Hx Hy. destruct DMG as [X|[IG Q]]; [rewrite X in D; discriminate D|].
    split; [rewrite IG; discriminate|]. split; [apply Q; auto|]. rewrite NT. discriminate.
  - split.
    + exists w. split; [exact F|]. split; [intros t r T R; destruct (E t r T R) as (E1 & E2 & _); auto|].
      intros t r T R. assert (M : model_step p t) by (unfold model_step; lia). destruct (E t r M R) as (_ & _ & E3). specialize (E3 ltac:(lia)).
      destruct (GW1 r R) as (G1 & G2 & G3).
      assert (NG : forall s, (0 < s <= tf p)%nat -> GDP_net w s r = GDP_gross w s r).
      { intros s Hs'. assert (Ms : model_step p s) by (unfold model_step; lia). destruct (C30_accounting_pf p w s r F Ms R) as [-> _]. destruct (E s r Ms R) as (_ & -> & _).
        unfold transfer_paid. rewrite NT. destruct DMG as [D|[-> _]]; [|lra]. unfold damage_costs. rewrite (Equations2.q_nodamage p w F) by auto. destruct (ignore_damages p); lra. }
      pose proof (C69_GDP_ceiling_pf p w r _ _ kap eps 1 c F R (proj1 DT) Hk Hs ltac:(lra) PD ltac:(lra) G1 G2 G3 GA5 ltac:(intros s Hs'; rewrite (NG s Hs'); lra) t M) as GC. fold hi in GC.
      split; [exact E3|]. split; [exact GC|]. rewrite E3. unfold baseline. rewrite (Equations.q_baseline p w F t r M R), CI. change (rval w v_GDP_net t r) with (GDP_net w t r). rewrite (NG t ltac:(lia)).
      destruct (PD r R) as [_ D]. destruct (D t M) as [_ G]. unfold baseline_carbon_intensity. pose proof (BP t r M R) as BPt.
      replace (hi * baseline_emissions p t r) with (baseline_emissions p t r / baseline_GDP p t r * (hi * baseline_GDP p t r)) by (field; lra).
      apply Rmult_le_compat_l; [apply Rlt_le, Rdiv_lt_0_compat; auto|exact GC].
    + intros SR1 ND TR.
      destruct (C68_not_abating_is_optimal_pf p w NR (conj Hs SR1) ltac:(lra) PD (fun t r T R => Rlt_le _ _ (BP t r T R)) (fun r R => Rlt_le _ _ (MS r R)) (Rlt_le _ _ MG) ND NT TR F (fun t r T R => proj1 (E t r T R))) as [O W].
      split; [exists w; split; [exact O|intros t r T R; destruct (E t r T R) as (E1 & E2 & _); auto]|].
      intros v Ov t r T R. destruct (W v Ov MG t r T R (MS r R) (BP t r T R)) as (W1 & W2 & _). auto.
Qed.
