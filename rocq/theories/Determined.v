(** C66: the numbers inside the horizon and of the listed regions determine the constraints. *)
From Verif Require Export Setters3 WelfareSpec Build.
From Coq Require Import Lra Lia.
Set Bullet Behavior "Strict Subproofs".

(** *** Specification *)
(** The generated constraints: the name of each component and, for every step and region, the expression it holds. *)
Definition generated (p : pars) : list (option string * list rule_out) :=
  map (fun nc => (fst nc, outputs (tf p) (regions p) (snd nc))) (pyomo_components p).

(** Damage coefficients that agree where the functional form uses them. *)
Definition same_damage (rs : list region) (d e : dmg) : Prop := forall r, In r rs ->
  d_form d r = d_form e r /\ d_a d r = d_a e r /\ d_b1 d r = d_b1 e r /\
  (str_contains "Linear" (d_form d r) = false -> d_b2 d r = d_b2 e r /\
    (str_contains "Quadratic" (d_form d r) = false -> d_b3 d r = d_b3 e r)).

Definition zero_dmg : dmg := {| d_form := fun _ => ""%string; d_b1 := fun _ => 0; d_b2 := fun _ => 0; d_b3 := fun _ => 0; d_a := fun _ => 0 |}.
Definition scalars (p : pars) : pars :=
  with_data (fun _ _ => 0) (fun _ _ => 0) (fun _ _ => 0) 0 zero_dmg zero_dmg (fun _ => (0, 0, 0)) (fun _ => (0, 0, 0)) (fun _ => (0, 0, 0))
    (fun _ => 0) None None (fun _ => 0) 0 p.

(** Two sets of numbers that agree on everything inside the horizon and for the listed regions that the chosen modules use. *)
Record same_numbers (p q : pars) : Prop := {
  sn_scalars : scalars p = scalars q;
  sn_population : forall t r, (t <= tf p)%nat -> In r (regions p) -> population p t r = population q t r;
  sn_GDP : forall t r, (t <= tf p)%nat -> In r (regions p) -> baseline_GDP p t r = baseline_GDP q t r;
  sn_emissions : forall t r, (t <= tf p)%nat -> In r (regions p) -> baseline_emissions p t r = baseline_emissions q t r;
  sn_scale : dmg_module p = COACCH -> damage_scale_factor p = damage_scale_factor q;
  sn_noslr : dmg_module p = COACCH -> same_damage (regions p) (dmg_noslr p) (dmg_noslr q);
  sn_slr : dmg_module p = COACCH -> same_damage (regions p) (dmg_slr p) (dmg_slr q);
  sn_oldest : dmg_module p = COACCH -> forall r, In r (regions p) -> mort_oldest p r = mort_oldest q r;
  sn_older : dmg_module p = COACCH -> forall r, In r (regions p) -> mort_older p r = mort_older q r;
  sn_young : dmg_module p = COACCH -> forall r, In r (regions p) -> mort_young p r = mort_young q r;
  sn_scaling : forall r, In r (regions p) -> MAC_scaling p r = MAC_scaling q r;
  sn_capital : forall r, In r (regions p) -> init_capital_factor p r = init_capital_factor q r;
  sn_aversion : welfare p = inequal_aversion_general -> inequal_aversion p = inequal_aversion q }.

(** *** Proof *)
Definition gen (n : nat) (l : list region) (c : constr) : list (option string * list rule_out) :=
  map (fun nc => (fst nc, outputs n l (snd nc))) (to_pyomo c).
Lemma gen_g n l nm f f' : (forall t, (t <= n)%nat -> f t = f' t) -> gen n l (GlobalC nm f) = gen n l (GlobalC nm f').
Proof.
  intros H. unfold gen. cbn [to_pyomo map fst snd outputs]. do 2 f_equal. apply map_ext_in. intros t T. apply in_seq in T. apply H. lia.
Qed.
Lemma gen_gi n l nm f f' : f = f' -> gen n l (GlobalInitC nm f) = gen n l (GlobalInitC nm f').
Proof. intros ->. reflexivity. Qed.
Lemma outputs_r n l (f f' : nat -> region -> rule_out) : (forall t r, (t <= n)%nat -> In r l -> f t r = f' t r) -> outputs n l (PCtr f) = outputs n l (PCtr f').
Proof.
  intros H. cbn [outputs]. rewrite !flat_map_concat_map. f_equal. apply map_ext_in. intros t T. apply in_seq in T. apply map_ext_in. intros r R. apply H; [lia|exact R].
Qed.
Lemma gen_r n l nm f f' : (forall t r, (t <= n)%nat -> In r l -> f t r = f' t r) -> gen n l (RegionalC nm f) = gen n l (RegionalC nm f').
Proof. intros H. unfold gen. cbn [to_pyomo map fst snd]. rewrite (outputs_r n l f f' H). reflexivity. Qed.
Lemma gen_ri n l nm f f' : (forall r, In r l -> f r = f' r) -> gen n l (RegionalInitC nm f) = gen n l (RegionalInitC nm f').
Proof. intros H. unfold gen. cbn [to_pyomo map fst snd outputs]. do 2 f_equal. apply map_ext_in. exact H. Qed.
Lemma gen_s n l nm a b c d i a' b' : (forall t r, (t <= n)%nat -> In r l -> a t r = a' t r) -> (forall t r, (t <= n)%nat -> In r l -> b t r = b' t r) ->
  gen n l (RegionalSoftEqC nm a b c d i) = gen n l (RegionalSoftEqC nm a' b' c d i).
Proof.
  intros A B. unfold gen. cbn [to_pyomo map fst snd].
  rewrite (outputs_r n l _ (fun t g => if negb (i t g) then soft_con c d (a' t g) (b' t g) true else Skip)) by (intros t r T R; rewrite (A t r T R), (B t r T R); reflexivity).
  rewrite (outputs_r n l (fun t g => if negb (i t g) then soft_con c d (a t g) (b t g) false else Skip) (fun t g => if negb (i t g) then soft_con c d (a' t g) (b' t g) false else Skip))
    by (intros t r T R; rewrite (A t r T R), (B t r T R); reflexivity).
  reflexivity.
Qed.
Lemma esum_ext_in (f g : region -> expr) l : (forall r, In r l -> f r = g r) -> esum f l = esum g l.
Proof.
  intros H. unfold esum. generalize (ENum 0). induction l as [|r l IH]; intros e; [reflexivity|]. cbn [fold_left].
  rewrite (H r (or_introl eq_refl)). apply IH. intros x X. apply H. right. exact X.
Qed.
Lemma Rsum_ext_in (f g : region -> R) l : (forall r, In r l -> f r = g r) -> Rsum f l = Rsum g l.
Proof.
  intros H. unfold Rsum. induction l as [|r l IH]; [reflexivity|]. cbn [fold_right].
  rewrite (H r (or_introl eq_refl)), IH; [reflexivity|]. intros x X. apply H. right. exact X.
Qed.

Section Agree.
  Variable p : pars.
  Variables (po gd em : nat -> region -> R) (sf : R) (dn ds : dmg) (mo mr my : region -> R * R * R) (ms : region -> R) (mi ma : option R)
    (ic : region -> R) (ia : R).
  Let q := with_data po gd em sf dn ds mo mr my ms mi ma ic ia p.
  Let n := tf p.
  Let l := regions p.
  Hypothesis Hpo : forall t r, (t <= n)%nat -> In r l -> population p t r = po t r.
  Hypothesis Hgd : forall t r, (t <= n)%nat -> In r l -> baseline_GDP p t r = gd t r.
  Hypothesis Hem : forall t r, (t <= n)%nat -> In r l -> baseline_emissions p t r = em t r.
  Hypothesis Hsf : dmg_module p = COACCH -> damage_scale_factor p = sf.
  Hypothesis Hdn : dmg_module p = COACCH -> same_damage l (dmg_noslr p) dn.
  Hypothesis Hds : dmg_module p = COACCH -> same_damage l (dmg_slr p) ds.
  Hypothesis Hmo : dmg_module p = COACCH -> forall r, In r l -> mort_oldest p r = mo r.
  Hypothesis Hmr : dmg_module p = COACCH -> forall r, In r l -> mort_older p r = mr r.
  Hypothesis Hmy : dmg_module p = COACCH -> forall r, In r l -> mort_young p r = my r.
  Hypothesis Hms : forall r, In r l -> MAC_scaling p r = ms r.
  Hypothesis Hic : forall r, In r l -> init_capital_factor p r = ic r.
  Hypothesis Hia : welfare p = inequal_aversion_general -> inequal_aversion p = ia.

  Ltac go := repeat (apply Forall2_cons; [first [reflexivity | apply gen_g; intros t T | apply gen_gi | apply gen_r; intros t r T R | apply gen_ri; intros r R]|]); try apply Forall2_nil.
  Notation rel := (fun c c' => gen n l c = gen n l c').

  Lemma e_cum t r : (t <= n)%nat -> In r l -> cumulative_baseline_emissions p t r = cumulative_baseline_emissions q t r.
  Proof.
    induction t as [|t IH]; intros T R; [reflexivity|]. cbn [cumulative_baseline_emissions].
    rewrite (IH ltac:(lia) R). cbn [q with_data baseline_emissions]. rewrite !Hem by (assumption || lia). reflexivity.
  Qed.
  Lemma e_gcum t : (t <= n)%nat -> cumulative_global_baseline_emissions p t = cumulative_global_baseline_emissions q t.
  Proof. intros T. apply Rsum_ext_in. intros r R. apply e_cum; assumption. Qed.
  Lemma e_int t r : (t <= n)%nat -> In r l -> baseline_carbon_intensity p t r = baseline_carbon_intensity q t r.
  Proof. intros T R. unfold baseline_carbon_intensity. rewrite (Hem t r T R), (Hgd t r T R). reflexivity. Qed.
  Lemma n0 : (0 <= n)%nat. Proof. lia. Qed.

  Lemma a_emissions : Forall2 rel (emissions_constraints p) (emissions_constraints q).
  Proof.
    unfold emissions_constraints. go.
    - unfold c_baseline_emissions. rewrite (e_int t r T R), (Hem t r T R). reflexivity.
    - unfold c_regional_abatement. rewrite (Hem t r T R). reflexivity.
    - unfold c_regional_emissions_init. rewrite (Hem 0 r n0 R). reflexivity.
    - unfold c_global_emissions_init. f_equal. apply esum_ext_in. intros r R. rewrite (Hem 0 r n0 R). reflexivity.
    - unfold c_relative_cumulative_emissions. rewrite (e_gcum t T). reflexivity.
    - unfold c_global_inertia. cbn [q with_data inertia_global]. destruct (inertia_global p); [|reflexivity].
      erewrite esum_ext_in; [reflexivity|]. intros x X. cbn beta. rewrite (Hem 0 x n0 X). reflexivity.
    - unfold c_regional_inertia. rewrite (Hem 0 r n0 R). reflexivity.
  Qed.
  Lemma a_form d e x r : same_damage l d e -> In r l -> functional_form d x r = functional_form e x r.
  Proof.
    intros S R. destruct (S r R) as (F & A & B & C). unfold functional_form. cbv zeta. rewrite <- F, <- A, <- B.
    destruct (str_contains "Linear" (d_form d r)); [reflexivity|]. destruct (C eq_refl) as [C2 C3]. rewrite <- C2.
    destruct (str_contains "Quadratic" (d_form d r)); [reflexivity|]. rewrite <- (C3 eq_refl). reflexivity.
  Qed.
  Lemma a_dmgf d e x y r : same_damage l d e -> In r l -> damage_fct d x y r = damage_fct e x y r.
  Proof. intros S R. unfold damage_fct. rewrite (a_form d e x r S R), (a_form d e y r S R). reflexivity. Qed.
  Lemma a_damage : Forall2 rel (damage_constraints p) (damage_constraints q).
  Proof.
    unfold damage_constraints. cbn [q with_data dmg_module]. destruct (dmg_module p) eqn:M; [|go].
    unfold coacch_constraints. go.
    - unfold c_damage_costs_non_slr. rewrite (a_dmgf _ _ _ _ r (Hdn eq_refl) R), (Hsf eq_refl). reflexivity.
    - unfold c_damage_costs_slr. rewrite (a_dmgf _ _ _ _ r (Hds eq_refl) R), (Hsf eq_refl). reflexivity.
    - unfold c_mortality. rewrite (Hmo eq_refl r R). reflexivity.
    - unfold c_mortality. rewrite (Hmr eq_refl r R). reflexivity.
    - unfold c_mortality. rewrite (Hmy eq_refl r R). reflexivity.
    - unfold c_mortality_cost. rewrite (Hpo t r T R). reflexivity.
  Qed.
  Lemma a_mitigation : Forall2 rel (mitigation_constraints p) (mitigation_constraints q).
  Proof.
    unfold mitigation_constraints. go.
    - unfold c_carbonprice, MAC. rewrite (Hms r R). reflexivity.
    - unfold c_mitigation_costs, AC. rewrite (Hms r R). reflexivity.
    - unfold c_area_under_MAC, AC. rewrite (Hms r R). reflexivity.
    - unfold c_LBD. rewrite (e_gcum t T). reflexivity.
  Qed.
  Lemma a_pops t : (t <= n)%nat -> esum (popE p t) (regions p) = esum (popE q t) (regions q).
  Proof. intros T. apply esum_ext_in. intros r R. unfold popE. rewrite (Hpo t r T R). reflexivity. Qed.
  Lemma a_trade : Forall2 rel (trade_constraints p) (trade_constraints q).
  Proof.
    unfold trade_constraints. cbn [q with_data trade]. destruct (trade p); [constructor| |].
    - unfold globalcostpool_constraints. go. unfold c_area_under_MAC, AC. rewrite (Hms r R). reflexivity.
    - unfold emissiontrade_constraints. go. unfold c_global_carbonprice.
      pose proof (a_pops t T) as E. unfold popE in E. rewrite E. f_equal. f_equal. apply esum_ext_in. intros r R. rewrite (Hpo t r T R). reflexivity.
  Qed.
  Lemma a_transfer : Forall2 rel (transfer_constraints p) (transfer_constraints q).
  Proof. unfold transfer_constraints. cbn [q with_data transfer]. destruct (transfer p); go. Qed.
  Lemma a_share t r : (t <= n)%nat -> In r l -> percapconv_share p t r = percapconv_share q t r.
  Proof.
    intros T R. unfold percapconv_share. cbv zeta.
    assert (A : percapconv_share_pop p t r = percapconv_share_pop q t r).
    { unfold percapconv_share_pop. rewrite (Hpo t r T R), (Rsum_ext_in (population p t) (population q t) (regions p)) by (intros x X; apply Hpo; assumption). reflexivity. }
    assert (B : percapconv_share_init p r = percapconv_share_init q r).
    { unfold percapconv_share_init. rewrite (Hem 0 r n0 R), (Rsum_ext_in (baseline_emissions p 0) (baseline_emissions q 0) (regions p)) by (intros x X; apply Hem; [exact n0|assumption]). reflexivity. }
    rewrite A, B. reflexivity.
  Qed.
  Lemma a_effort : Forall2 rel (effort_constraints p) (effort_constraints q).
  Proof.
    unfold effort_constraints. apply Forall2_cons; [reflexivity|]. apply Forall2_cons; [reflexivity|]. apply Forall2_cons; [|constructor].
    apply gen_s; intros t r T R; [rewrite (a_share t r T R)|]; reflexivity.
  Qed.
  Lemma a_K t r : (t <= n)%nat -> In r l -> TFP_capital p t r = TFP_capital q t r.
  Proof.
    induction t as [|t IH]; intros T R; cbn [TFP_capital].
    - rewrite (Hic r R), (Hgd 0 r T R). reflexivity.
    - rewrite (IH ltac:(lia) R), (Hgd t r ltac:(lia) R). reflexivity.
  Qed.
  Lemma a_TFP t r : (t <= n)%nat -> In r l -> TFP p t r = TFP q t r.
  Proof. intros T R. unfold TFP. rewrite (a_K t r T R), (Hgd t r T R), (Hpo t r T R). reflexivity. Qed.
  Lemma a_cobb : Forall2 rel (cobbdouglas_constraints p) (cobbdouglas_constraints q).
  Proof.
    unfold cobbdouglas_constraints. go.
    - unfold c_GDP_gross. rewrite (a_TFP t r T R), (Hpo t r T R). reflexivity.
    - unfold c_GDP_gross_init. rewrite (Hgd 0 r n0 R). reflexivity.
    - unfold c_capital_stock_init. rewrite (Hgd 0 r n0 R), (Hic r R). reflexivity.
  Qed.
  Lemma a_welfare : Forall2 rel (welfare_constraints p) (welfare_constraints q).
  Proof.
    unfold welfare_constraints. cbn [q with_data welfare]. destruct (welfare p) eqn:W; go.
    - unfold c_wlm_utility, popE. rewrite (Hpo t r T R). reflexivity.
    - unfold c_wlm_welfare, popE. f_equal. apply esum_ext_in. intros r R. rewrite (Hpo t r T R). reflexivity.
    - unfold c_cm_utility, popE. rewrite (Hpo t r T R). reflexivity.
    - unfold c_cm_welfare, pop_sumE. rewrite (a_pops t T). reflexivity.
    - unfold c_iag_utility, popE. rewrite (Hpo t r T R), (Hia eq_refl). reflexivity.
    - unfold c_iag_welfare, pop_sumE. rewrite (a_pops t T), (Hia eq_refl). reflexivity.
  Qed.
  Lemma f2_refl (cs : list constr) : Forall2 rel cs cs. Proof. induction cs; constructor; auto. Qed.
  Lemma a_all : Forall2 rel (all_constraints p) (all_constraints q).
  Proof.
    unfold all_constraints. apply Forall2_app; [exact a_emissions|]. apply Forall2_app; [exact (f2_refl _)|]. apply Forall2_app; [exact a_damage|].
    apply Forall2_app; [exact a_mitigation|]. apply Forall2_app; [exact a_trade|]. apply Forall2_app; [exact a_transfer|]. apply Forall2_app; [exact a_effort|].
    apply Forall2_app; [exact a_cobb|]. apply Forall2_app; [exact a_welfare|exact (f2_refl _)].
  Qed.
  Lemma generated_data : generated p = generated q.
  Proof.
    unfold generated, pyomo_components. change (tf q) with n. change (regions q) with l. fold n l. induction a_all as [|c c' cs cs' E _ IH]; [reflexivity|].
    cbn [flat_map]. rewrite !map_app. f_equal; [exact E|exact IH].
  Qed.
  Lemma bounds_data v : var_bounds p v <-> var_bounds q v. Proof. reflexivity. Qed.
  Lemma better_data v w : better p v w <-> better q v w. Proof. reflexivity. Qed.
  Lemma divisors_data : param_divisors p = param_divisors q.
  Proof.
    unfold param_divisors. change (tf q) with n. change (regions q) with l. fold n l. f_equal; [|f_equal; [|f_equal]].
    - rewrite !flat_map_concat_map. f_equal. apply map_ext_in. intros t T. apply in_seq in T. apply map_ext_in. intros r R. apply Hgd; [lia|exact R].
    - f_equal. apply Rsum_ext_in. intros r R. apply Hem; [exact n0|exact R].
    - apply map_ext_in. intros t T. apply in_seq in T. apply Rsum_ext_in. intros r R. apply Hpo; [lia|exact R].
    - rewrite !flat_map_concat_map. f_equal. apply map_ext_in. intros t T. apply in_seq in T. apply map_ext_in. intros r R.
      rewrite (a_K t r) by (lia || exact R). rewrite (Hpo t r) by (lia || exact R). reflexivity.
  Qed.
End Agree.

Lemma data_of_scalars p q : scalars p = scalars q ->
  q = with_data (population q) (baseline_GDP q) (baseline_emissions q) (damage_scale_factor q) (dmg_noslr q) (dmg_slr q) (mort_oldest q) (mort_older q) (mort_young q)
        (MAC_scaling q) (min_rel_payment_level q) (max_rel_payment_level q) (init_capital_factor q) (inequal_aversion q) p.
Proof. intros E. destruct p, q. unfold scalars, with_data in E. cbn in E. injection E as. subst. reflexivity. Qed.

Lemma feasible_generated p v : feasible p v <-> (forall nm os o, In (nm, os) (generated p) -> In o os -> sat v o) /\ var_bounds p v.
Proof.
  unfold feasible, generated, pyomo_components. split; intros [F B]; (split; [|exact B]).
  - intros nm os o I O. apply in_map_iff in I as (nc & E & I). injection E as <- <-. apply in_flat_map in I as (c & C & I). apply (F c nc C I o O).
  - intros c nc C I o O. apply (F (fst nc) (outputs (tf p) (regions p) (snd nc)) o); [|exact O].
    apply in_map_iff. exists nc. split; [reflexivity|]. apply in_flat_map. exists c. auto.
Qed.

Lemma C66_same_constraints_pf : forall p q, same_numbers p q ->
  generated p = generated q /\ param_divisors p = param_divisors q /\ forall v, (feasible p v <-> feasible q v) /\ (optimal p v <-> optimal q v).
Proof.
  intros p q S. destruct S as [E S1 S2 S3 S4 S5 S6 S7 S8 S9 S10 S11 S12].
  pose proof (data_of_scalars p q E) as Q.
  assert (G : generated p = generated q) by (rewrite Q; apply generated_data; assumption).
  assert (D : param_divisors p = param_divisors q) by (rewrite Q; apply divisors_data; assumption).
  assert (F : forall v, feasible p v <-> feasible q v).
  { intros v. rewrite !feasible_generated, G.
    assert (VB : var_bounds p v <-> var_bounds q v) by (rewrite Q; apply bounds_data). rewrite VB. reflexivity. }
  split; [exact G|]. split; [exact D|]. intros v. split; [apply F|]. unfold optimal. rewrite F.
  assert (B : forall w, better p v w <-> better q v w) by (intros w; rewrite Q; apply better_data).
  split; intros [H K]; (split; [exact H|]); intros w W; apply B, K, F, W.
Qed.
