(** C61: from a configuration to a model that builds, with the shipped input files. *)
From Verif Require Import PyBase NestedDict Parsers Config ConfigDefault NestedDictFacts ConfigFacts ConfigFacts2 ConfigFacts3 ConfigSpec RefFacts ConfigBridge ConfigLemmas
  TimeGrid DataStore RegionalParams Instantiate InstFacts TimeGridLemmas DataStoreLemmas RegionalParamsLemmas InstantiateLemmas ConstructFacts BundledData BundledFacts BundledSigns
  Model ModelSpec Build ModelFacts EconLemmas BuildLemmas DefinedFacts Loading LoadingLemmas LoadingExist.
From Coq Require Import Reals QArith Qreals Lra Lia Permutation.
Import ListNotations.
Open Scope string_scope.
Open Scope list_scope.
Open Scope R_scope.
Set Bullet Behavior "Strict Subproofs".

(** *** Specification *)
(** The last model year (the first grid year not before [stop]) is 2100 or later. *)
Definition reaches_2100 (start stop step : R) : Prop := forall n : nat, stop <= start + INR n * step -> 2100 <= start + INR n * step.
(** What the accepted configuration must still satisfy for the model to be built. *)
Record usable_configuration (o : oracles) (params : pyval) (start stop step : R) : Prop := {
  uc_trade : ~ text_in params ["model"; "emissiontrade module"] "globalcostpool";
  uc_convergence : text_in params ["effort sharing"; "regime"] "per_cap_convergence" -> start < stop -> text_in params ["model"; "emissiontrade module"] "emissiontrade";
  uc_budget : lookup params ["emissions"; "carbonbudget"] <> Some (VBool false) -> reaches_2100 start stop step ->
    exists x, number_in params ["economics"; "damages"; "percentage reversible"] x /\ 1 <= x;
  uc_non_increasing : flag_in params ["emissions"; "non increasing emissions after 2100"] true -> start - step <= 2100;
  uc_LBD : ~ quantity_in o params ["economics"; "MAC"; "LBD_scaling"] "emissions_unit" 0;
  uc_elasmu : ~ number_in params ["economics"; "elasmu"] 1;
  uc_aversion : text_in params ["model"; "welfare module"] "inequal_aversion_general" -> ~ number_in params ["economics"; "inequal_aversion"] 1
}.
(** The baseline series are positive. *)
Definition positive_baselines (p : pars) : Prop :=
  (forall r t, In r (regions p) -> (t <= tf p)%nat -> 0 < population p t r /\ 0 < baseline_GDP p t r) /\
  (forall r, In r (regions p) -> 0 < baseline_emissions p 0 r) /\
  (forall t, (0 < t <= tf p)%nat -> 0 < cumulative_global_baseline_emissions p t).
(** No values of their own for capital and damages in the "regions" section. *)
Definition no_own_values (d : pydict) : Prop :=
  forall k x, In (k, x) d -> lookup x ["economics"; "init_capital_factor"] = None /\ forall col, lookup x ["COACCH"; col] = None.

(** *** The shipped regional numbers *)
Lemma perm_forallb {A} (f : A -> bool) l l' : Permutation l l' -> forallb f l = forallb f l'.
Proof. induction 1; cbn; try congruence. rewrite !Bool.andb_assoc, (Bool.andb_comm (f y)). reflexivity. Qed.
Lemma perm_filter {A} (f : A -> bool) l l' : Permutation l l' -> Permutation (filter f l) (filter f l').
Proof.
  induction 1 as [|x l l' P IH|x y l|]; cbn; [auto| | |eapply perm_trans; eassumption].
  - destruct (f x); auto.
  - destruct (f x), (f y); auto. apply perm_swap.
Qed.
Lemma mapped_single mo data pairs col region row : (forall l, Permutation l (mo l)) ->
  filter (fun r => py_eqb (fst r) (VStr region)) (outer_merge (fun l => l) data pairs) = [row] ->
  container_get mo (Mapped data pairs) col region = container_get (fun l => l) (Mapped data pairs) col region.
Proof.
  intros PM F. unfold container_get, locate. destruct (String.eqb col "region"); [reflexivity|]. destruct (index_of col (t_columns data)) as [n|]; [|reflexivity]. cbn [bind].
  assert (P : Permutation (outer_merge (fun l => l) data pairs) (outer_merge mo data pairs)) by (unfold outer_merge; apply PM).
  assert (G : filter (fun r => py_eqb (fst r) (VStr region)) (outer_merge mo data pairs) = [row]).
  { apply Permutation_length_1_inv. rewrite <- F. apply perm_filter, P. }
  rewrite F, G. rewrite (perm_forallb is_number _ _ (Permutation_map (fun r => nth n (snd r) nan) P)). reflexivity.
Qed.
Definition shipped (cat : container) (col r : string) : result pyval := container_get (fun l => l) cat col r.
Definition coacch_map : container := Mapped coacch image_pairs.
Definition one_row (r : string) : bool :=
  match filter (fun x => py_eqb (fst x) (VStr r)) (outer_merge (fun l => l) coacch image_pairs) with [_] => true | _ => false end.
Definition knownb (s : string) : bool := (str_contains "Linear" s || str_contains "Quadratic" s || str_contains "Logistic" s)%bool.
Definition is_q (v : result pyval) (f : Q -> bool) : bool := match v with Ok x => match number_of x with Some q => f q | None => false end | Err _ => false end.
Definition form_ok (label r : string) (logistic : bool) : bool :=
  match shipped coacch_map (label ++ "_form") r with
  | Ok (VStr s) => knownb s && (if str_contains "Logistic" s then logistic else true)
  | _ => false end.
Definition logistic_ok (label r : string) : bool :=
  is_q (shipped coacch_map (label ++ "_b2") r) (fun b2 => Qle_bool 0 b2 || (Qle_bool b2 (-11 # 10) && is_q (shipped coacch_map (label ++ "_b3") r) (fun b3 => Qle_bool b3 0)))%bool.
Definition region_ok (r : string) : bool :=
  (one_row r && is_q (shipped (Direct economics) "init_capital_factor" r) (fun q => negb (Qle_bool q 0)) &&
   form_ok "NoSLR" r false && form_ok "SLR-Ad" r (logistic_ok "SLR-Ad" r) && form_ok "SLR-NoAd" r (logistic_ok "SLR-NoAd" r))%bool.
Lemma regions_checked : forallb region_ok image_regions = true.
Proof. vm_compute. reflexivity. Qed.
Lemma direct_any mo data col r : container_get mo (Direct data) col r = container_get (fun l => l) (Direct data) col r.
Proof. reflexivity. Qed.
Local Opaque coacch image_pairs economics mac mortality container_get outer_merge.
Lemma file_economics mo col r : file_value mo bundled_categories "economics" col r = container_get mo (Direct economics) col r.
Proof. reflexivity. Qed.
Lemma file_coacch mo col r : file_value mo bundled_categories "COACCH" col r = container_get mo (Mapped coacch image_pairs) col r.
Proof. reflexivity. Qed.

Lemma number_number v q : number_of v = Some q -> number v = Ok (Q2R q).
Proof.
  intros E. destruct v as [| |z|[]| | |]; cbn in E |- *; try discriminate; injection E as <-; [|reflexivity].
  f_equal. unfold Q2R, inject_Z. cbn. field.
Qed.
Lemma is_q_ok v f : is_q v f = true -> exists x q, v = Ok x /\ number_of x = Some q /\ f q = true.
Proof. unfold is_q. destruct v as [x|]; [|discriminate]. destruct (number_of x) as [q|] eqn:N; [|discriminate]. eauto. Qed.
Lemma knownb_ok s : knownb s = true -> known_form s.
Proof. unfold knownb, known_form. intros H. apply Bool.orb_true_iff in H as [H|H]; [apply Bool.orb_true_iff in H as [H|H]|]; auto. Qed.
Lemma Qle_bool_Q2R a b : Qle_bool a b = true -> Q2R a <= Q2R b.
Proof. intros H. apply Qle_bool_iff in H. apply Qle_Rle, H. Qed.
Lemma shipped_store o disk mo uf sp c user inst d cat col r : construct o disk mo uf sp c user = Ok inst -> disk = bundled -> distinct_keys user -> default_inputs user ->
  (forall l, Permutation l (mo l)) -> lookup (i_params inst) ["regions"] = Some (VDict d) -> no_own_values d ->
  (cat = "economics" /\ col = "init_capital_factor" \/ cat = "COACCH") -> In r image_regions ->
  getregional mo (i_store inst) cat col r = shipped (if String.eqb cat "COACCH" then coacch_map else Direct economics) col r.
Proof.
  intros H -> DU DI PM RL NO CC R.
  destruct (construct_inv _ _ _ _ _ _ _ _ H) as (raw & rs & ch & decls & start & dt & H1 & H2 & _ & _ & _ & _ & H7 & _).
  assert (A : accepted o user raw (i_params inst) (i_tree inst)) by (split; [exact DU|auto]).
  rewrite (bundled_store _ _ _ _ _ A DI) in H7. apply Ok_inj in H7. rewrite H7.
  assert (OV : override (i_params inst) r cat col = None).
  { unfold override. change ["regions"; r; cat; col] with (["regions"] ++ [r; cat; col]). rewrite lookup_app, RL. cbn [lookup].
    destruct (dget d (KStr r)) as [x|] eqn:X; [|reflexivity].
    assert (I : In (KStr r, x) d).
    { clear - X. induction d as [|[k y] d IH]; [discriminate|]. cbn [dget] in X. destruct (key_eqb k (KStr r)) eqn:E.
      - injection X as ->. apply key_eqb_eq in E. subst k. left. reflexivity.
      - right. auto. }
    destruct (NO _ _ I) as [N1 N2]. destruct CC as [[-> ->]| ->]; [exact N1|exact (N2 col)]. }
  rewrite C15_otherwise_file_value_pf by exact OV. cbn [st_categories]. unfold shipped. destruct CC as [[-> ->]| ->].
  - rewrite file_economics. apply direct_any.
  - rewrite file_coacch. unfold coacch_map. cbn [String.eqb Ascii.eqb Bool.eqb].
    pose proof regions_checked as K. rewrite forallb_forall in K. specialize (K _ R). unfold region_ok in K.
    apply Bool.andb_true_iff in K as [K _]. apply Bool.andb_true_iff in K as [K _]. apply Bool.andb_true_iff in K as [K _]. apply Bool.andb_true_iff in K as [K _].
    unfold one_row in K. destruct (filter (fun x => py_eqb (fst x) (VStr r)) (outer_merge (fun l => l) coacch image_pairs)) as [|row [|]] eqn:F; try discriminate K.
    exact (mapped_single mo coacch image_pairs col r row PM F).
Qed.
Lemma shipped_pars o mo uf sp c user inst d p : construct o bundled mo uf sp c user = Ok inst -> distinct_keys user -> default_inputs user ->
  (forall l, Permutation l (mo l)) -> lookup (i_params inst) ["regions"] = Some (VDict d) -> no_own_values d ->
  prints_quantiles o -> (forall name, ~ customised (i_params inst) name) -> loads inst p -> (forall r, In r (regions p) -> In r image_regions) ->
  (forall r, In r (regions p) -> 0 < init_capital_factor p r) /\
  (dmg_module p = COACCH -> forall r, In r (regions p) -> known_form (d_form (dmg_noslr p) r) /\ known_form (d_form (dmg_slr p) r) /\
     str_contains "Logistic" (d_form (dmg_noslr p) r) = false /\
     (str_contains "Logistic" (d_form (dmg_slr p) r) = true -> 0 <= d_b2 (dmg_slr p) r \/ (d_b2 (dmg_slr p) r <= -11/10 /\ d_b3 (dmg_slr p) r <= 0))).
Proof.
  intros H DU DI PM RL NO PQ NC L RS.
  destruct (acc _ _ _ _ _ _ _ _ DU H) as (raw & A).
  assert (PC : plain_columns o (i_params inst)) by (apply (bundled_columns _ _ _ _ _ mo [] A PQ PM); intros r []).
  pose proof (C60_inputs_reach_model_pf _ _ _ _ _ _ _ _ _ DU H NC PC L) as IU.
  assert (SH : forall cat col r, (cat = "economics" /\ col = "init_capital_factor" \/ cat = "COACCH") -> In r (regions p) ->
    getregional mo (i_store inst) cat col r = shipped (if String.eqb cat "COACCH" then coacch_map else Direct economics) col r).
  { intros cat col r CC R. eapply shipped_store; eauto. }
  assert (OK : forall r, In r (regions p) -> is_q (shipped (Direct economics) "init_capital_factor" r) (fun q => negb (Qle_bool q 0)) = true /\
     form_ok "NoSLR" r false = true /\ form_ok "SLR-Ad" r (logistic_ok "SLR-Ad" r) = true /\ form_ok "SLR-NoAd" r (logistic_ok "SLR-NoAd" r) = true).
  { intros r R. pose proof regions_checked as K. rewrite forallb_forall in K. specialize (K _ (RS _ R)). unfold region_ok in K.
    apply Bool.andb_true_iff in K as [K K5]. apply Bool.andb_true_iff in K as [K K4]. apply Bool.andb_true_iff in K as [K K3]. apply Bool.andb_true_iff in K as [_ K2]. auto. }
  split.
  - intros r R. destruct (OK r R) as [K _]. apply is_q_ok in K as (x & q & E & N & Q).
    rewrite (iu_capital _ _ _ _ IU r x (Q2R q) R).
    + apply Bool.negb_true_iff in Q. assert (X : ~ (q <= 0)%Q) by (intros X; apply Qle_bool_iff in X; congruence).
      apply Qnot_le_lt in X. apply Qlt_Rlt in X. unfold Q2R in X at 1. cbn in X. lra.
    + rewrite SH by auto. exact E.
    + apply number_number, N.
  - intros DM r R. destruct (OK r R) as (_ & K1 & K2 & K3).
    destruct (combined_dec (i_params inst)) as [CB|NB].
    + destruct (lookup_scalar _ _ _ _ _ ["economics"; "damages"; "quantile"] A ltac:(vm_compute; reflexivity)) as (qu & QU & _).
      destruct (lookup_scalar _ _ _ _ _ ["economics"; "damages"; "coacch_slr_withadapt"] A ltac:(vm_compute; reflexivity)) as (ad & AD & _).
      destruct (iu_combined _ _ _ _ IU CB qu _ QU (ex_intro _ ad (conj AD eq_refl))) as (_ & _ & F). destruct (F r R) as (F1 & _ & _ & F4 & _).
      rewrite F1, F4. split; [right; left; reflexivity|]. split; [left; reflexivity|]. split; [reflexivity|]. intros X. discriminate X.
    + destruct (lookup_scalar _ _ _ _ _ ["economics"; "damages"; "quantile"] A ltac:(vm_compute; reflexivity)) as (qu & QU & _).
      destruct (lookup_scalar _ _ _ _ _ ["economics"; "damages"; "coacch_slr_withadapt"] A ltac:(vm_compute; reflexivity)) as (ad & AD & _).
      destruct (iu_noslr _ _ _ _ IU DM NB qu QU) as (N1 & _). destruct (iu_slr _ _ _ _ IU DM NB qu _ QU (ex_intro _ ad (conj AD eq_refl))) as (S1 & _ & S3 & S4 & _).
      assert (KS : form_ok ("SLR-" ++ (if py_truth ad then "Ad" else "NoAd")) r (logistic_ok ("SLR-" ++ (if py_truth ad then "Ad" else "NoAd")) r) = true) by (destruct (py_truth ad); assumption).
      set (lab := if py_truth ad then "Ad" else "NoAd") in *.
      assert (EQ : forall x, ("SLR-" ++ lab ++ x = ("SLR-" ++ lab) ++ x)%string) by (intros; symmetry; apply append_assoc').
      unfold form_ok in K1, KS. destruct (shipped coacch_map ("NoSLR" ++ "_form") r) as [[| | | |s1| |]|] eqn:E1; try discriminate K1.
      destruct (shipped coacch_map (("SLR-" ++ lab) ++ "_form") r) as [[| | | |s2| |]|] eqn:E2; try discriminate KS.
      rewrite (N1 r s1 R) by (rewrite SH by auto; exact E1). rewrite (S1 r s2 R) by (rewrite EQ; rewrite SH by auto; exact E2).
      apply Bool.andb_true_iff in K1 as [K1 K1']. apply Bool.andb_true_iff in KS as [KS KS'].
      split; [apply knownb_ok, K1|]. split; [apply knownb_ok, KS|]. split; [destruct (str_contains "Logistic" s1); congruence|].
      intros LG. rewrite LG in KS'. unfold logistic_ok in KS'. apply is_q_ok in KS' as (x & q & X1 & X2 & X3).
      rewrite (S3 r x (Q2R q) R) by (first [rewrite EQ; rewrite SH by auto; exact X1|apply number_number, X2]).
      apply Bool.orb_true_iff in X3 as [X3|X3].
      * left. apply Qle_bool_Q2R in X3. unfold Q2R in X3 at 1. cbn in X3. lra.
      * right. apply Bool.andb_true_iff in X3 as [X3 X4]. apply is_q_ok in X4 as (y & q' & Y1 & Y2 & Y3).
        rewrite (S4 r y (Q2R q') R) by (first [rewrite EQ; rewrite SH by auto; exact Y1|apply number_number, Y2]).
        apply Qle_bool_Q2R in X3, Y3. unfold Q2R in X3 at 2, Y3 at 2. cbn in X3, Y3. lra.
Qed.

(** *** Ranges of the configuration *)
Definition min_of (p : list string) : option Q :=
  match template_node p with
  | Some n =>
      match entry n "type", entry n "can_be_false", entry n "min", entry n "max" with
      | Some (VStr t), None, Some lo, mx =>
          match number_of lo, mx with
          | Some a, None => if (String.eqb t "float" || String.eqb t "int")%bool then Some a else None
          | Some a, Some hi => match number_of hi with Some _ => if (String.eqb t "float" || String.eqb t "int")%bool then Some a else None | None => None end
          | _, _ => None
          end
      | _, _, _, _ => None
      end
  | None => None
  end.
Lemma above_min o user raw params tree p lo x : accepted o user raw params tree -> min_of p = Some lo -> number_in params p x -> Q2R lo <= x.
Proof.
  intros A B (v & LV & NV). unfold min_of in B. destruct (template_node p) as [n|] eqn:T; [|discriminate]. pose proof (template_node_ok _ _ T) as P.
  destruct (entry n "type") as [[| | | |t| |]|] eqn:ET; try discriminate. destruct (entry n "can_be_false") eqn:EF; [discriminate|].
  destruct (entry n "min") as [l|] eqn:EL; [|discriminate]. destruct (number_of l) as [a|] eqn:NL; [|discriminate].
  assert (NUM : forall v q, number_of v = Some q -> numeric v (FFin q) /\ FFin q <> FNaN).
  { intros w q E. destruct w as [| |z|[]| | |]; cbn in E; try discriminate; injection E as <-; (split; [|discriminate]); [left; eauto|right; reflexivity]. }
  assert (U : exists hi, upper_bound n hi).
  { unfold upper_bound. destruct (entry n "max") as [h|]; [|exists FInf; reflexivity]. destruct (number_of h) as [b|] eqn:NH; [|discriminate]. exists (FFin b). auto. }
  assert (TY : (String.eqb t "float" || String.eqb t "int")%bool = true /\ a = lo).
  { destruct (String.eqb t "float" || String.eqb t "int")%bool; destruct (entry n "max") as [h|]; try destruct (number_of h); try discriminate B; injection B as <-; auto. }
  destruct TY as [TY ->]. destruct U as [hi U].
  assert (S : scalar_node n = true /\ quantity_node n = false /\ (has_type n "float" \/ has_type n "int")).
  { unfold scalar_node, quantity_node, has_type. rewrite ET. apply Bool.orb_true_iff in TY as [E|E]; apply String.eqb_eq in E; subst t; cbn; auto. }
  destruct S as (S1 & S2 & S3).
  destruct (scalar_value_spec _ _ _ _ _ _ _ A P S1) as (v' & L1 & L2 & _); [rewrite S2; discriminate|]. rewrite LV in L2. injection L2 as <-.
  destruct A as (_ & C & _).
  destruct (C03_bounds_pf o config_default user raw tree p n (FFin lo) hi default_distinct C P S3) as (w & W & H); [unfold lower_bound; rewrite EL; auto|exact U|].
  rewrite W in L1. injection L1 as ->. destruct H as [[-> _]|[->|(y & Y & Y1 & _)]]; [discriminate NV|discriminate NV|].
  destruct y as [q| | |]; cbn in Y1; try contradiction.
  - assert (x = Q2R q) as ->.
    { destruct Y as [(z & -> & E)| ->]; cbn in NV; apply Ok_inj in NV; subst x; [injection E as ->; unfold Q2R, inject_Z; cbn; field|reflexivity]. }
    apply Qle_Rle, Y1.
  - destruct Y as [(z & _ & E)| ->]; [discriminate E|discriminate NV].
Qed.
Lemma number_in_fun params path x y : number_in params path x -> number_in params path y -> x = y.
Proof. intros (v & A & B) (w & C & D). rewrite A in C. injection C as <-. rewrite B in D. apply Ok_inj in D. auto. Qed.
Lemma quantity_in_fun o params path u x y : quantity_in o params path u x -> quantity_in o params path u y -> x = y.
Proof. intros (v & q & A & _ & B & ->) (w & q' & C & _ & D & ->). rewrite A in C. injection C as <-. rewrite B in D. apply Ok_inj in D. injection D as ->. reflexivity. Qed.
Lemma text_in_fun params path x y : text_in params path x -> text_in params path y -> x = y.
Proof. unfold text_in. congruence. Qed.

Lemma C61_choices o params p start stop : configured o params p -> number_in params ["time"; "start"] start -> number_in params ["time"; "end"] stop ->
  start <= stop -> 0 < dt p ->
  (dmg_module p = COACCH -> forall r, In r (regions p) -> known_form (d_form (dmg_noslr p) r) /\ known_form (d_form (dmg_slr p) r)) ->
  (usable_choices p <-> usable_configuration o params start stop (dt p)).
Proof.
  intros CF NS NE SE DP KF.
  assert (B : beginyear p = start) by exact (number_in_fun _ _ _ _ (cf_start _ _ _ CF) NS).
  destruct (cf_end _ _ _ CF) as (stop' & NE' & G). assert (stop' = stop) by exact (number_in_fun _ _ _ _ NE' NE). subst stop'.
  rewrite B in G. specialize (G SE DP). unfold year in G. rewrite B in G.
  assert (TF : (0 < tf p)%nat <-> start < stop).
  { split; intros X.
    - assert (1 <= INR (tf p)) by (change 1 with (INR 1); apply le_INR; lia). destruct G as [G1 G2]. destruct (Rle_lt_or_eq_dec _ _ SE) as [Y|Y]; [exact Y|]. subst stop.
      exfalso. assert (1 * dt p <= INR (tf p) * dt p) by (apply Rmult_le_compat_r; lra). lra.
    - destruct (tf p) as [|k]; [|lia]. cbn [INR] in G. lra. }
  assert (RE : 2100 <= year p (tf p) <-> reaches_2100 start stop (dt p)).
  { unfold year. rewrite B. split.
    - intros X n Y. destruct (le_lt_dec (tf p) n) as [L|L].
      + apply le_INR in L. assert (INR (tf p) * dt p <= INR n * dt p) by (apply Rmult_le_compat_r; lra). lra.
      + exfalso. apply Nat.le_succ_l in L. apply le_INR in L. rewrite S_INR in L. assert ((INR n + 1) * dt p <= INR (tf p) * dt p) by (apply Rmult_le_compat_r; lra). lra.
    - intros X. apply X. lra. }
  unfold usable_choices. split.
  - intros (U1 & U2 & U3 & U4 & U5 & U6 & U7 & _). constructor.
    + intros X. apply U1. pose proof (text_in_fun _ _ _ _ (cf_trade _ _ _ CF) X) as E. destruct (trade p); try discriminate E. reflexivity.
    + intros X Y. pose proof (text_in_fun _ _ _ _ (cf_regime _ _ _ CF) X) as E. destruct (effort_regime p) eqn:ER; try discriminate E.
      pose proof (U2 eq_refl (proj2 TF Y)) as T. pose proof (cf_trade _ _ _ CF) as K. rewrite T in K. exact K.
    + intros X Y. exists (perc_reversible p). split; [exact (cf_reversible _ _ _ CF)|]. apply U3; [|apply RE, Y].
      intros N. apply X. pose proof (cf_budget _ _ _ CF) as K. rewrite N in K. exact K.
    + intros X. rewrite <- B. apply U4. pose proof (cf_non_increasing _ _ _ CF) as K. unfold flag_in in *. congruence.
    + intros X. apply U5. exact (quantity_in_fun _ _ _ _ _ _ (cf_LBD_scaling _ _ _ CF) X).
    + intros X. apply U6. exact (number_in_fun _ _ _ _ (cf_elasmu _ _ _ CF) X).
    + intros X Y. pose proof (text_in_fun _ _ _ _ (cf_welfare _ _ _ CF) X) as E. destruct (welfare p) eqn:W; try discriminate E.
      apply (U7 eq_refl). exact (number_in_fun _ _ _ _ (cf_aversion _ _ _ CF W) Y).
  - intros [U1 U2 U3 U4 U5 U6 U7]. split; [|split; [|split; [|split; [|split; [|split; [|split]]]]]].
    + intros T. apply U1. pose proof (cf_trade _ _ _ CF) as K. rewrite T in K. exact K.
    + intros E T. assert (K : text_in params ["effort sharing"; "regime"] "per_cap_convergence") by (pose proof (cf_regime _ _ _ CF) as K; rewrite E in K; exact K).
      pose proof (text_in_fun _ _ _ _ (cf_trade _ _ _ CF) (U2 K (proj1 TF T))) as E'. destruct (trade p); try discriminate E'. reflexivity.
    + intros N Y. destruct U3 as (x & X1 & X2); [|apply RE, Y|rewrite (number_in_fun _ _ _ _ (cf_reversible _ _ _ CF) X1); exact X2].
      pose proof (cf_budget _ _ _ CF) as K. destruct (budget p) as [b|]; [|congruence]. destruct K as (v & q & K1 & K2 & _). congruence.
    + intros N. rewrite B. apply U4. pose proof (cf_non_increasing _ _ _ CF) as K. rewrite N in K. exact K.
    + intros X. apply U5. pose proof (cf_LBD_scaling _ _ _ CF) as K. rewrite X in K. exact K.
    + intros X. apply U6. pose proof (cf_elasmu _ _ _ CF) as K. rewrite X in K. exact K.
    + intros W X. assert (K : text_in params ["model"; "welfare module"] "inequal_aversion_general") by (pose proof (cf_welfare _ _ _ CF) as K; rewrite W in K; exact K).
      apply (U7 K). pose proof (cf_aversion _ _ _ CF W) as K'. rewrite X in K'. exact K'.
    + exact KF.
Qed.

(** *** C61 *)
(** With the shipped files, whatever was constructed before: an accepted configuration with real numbers, a horizon within 2010-2200, some of
    the 26 regions and depreciation below 1 gives an instance and a model; if the baselines are positive, the model is built exactly when
    the configuration is usable. *)
Lemma C61_builds_iff_usable_pf : forall o mo uf sp h user raw params tree d start stop,
  accepted o user raw params tree -> default_inputs user -> plain_quantities raw -> real_numbers params -> (forall name, ~ customised params name) ->
  lookup params ["regions"] = Some (VDict d) -> d <> [] -> no_own_values d -> (forall k x, In (k, x) d -> exists r, k = KStr r /\ In r image_regions) ->
  number_at params ["time"; "start"] start -> number_at params ["time"; "end"] stop -> (2010 <= start)%Q -> (start <= stop)%Q -> (stop <= 2200)%Q ->
  (forall x, number_in params ["economics"; "GDP"; "depreciation of capital"] x -> x < 1) ->
  prints_quantiles o -> rejects_false o -> (forall l, Permutation l (mo l)) -> units_known uf -> spline_defined sp ->
  (forall disk a, In (disk, a) h -> disk = bundled) ->
  exists inst, construct o bundled mo uf sp (after uf sp h empty_caches) user = Ok inst /\ i_params inst = params /\ (exists p, loads inst p) /\
    forall p, loads inst p -> positive_baselines p ->
      numeric_ranges p /\ sound_data p /\ slr_logistic_ok p /\
      forall extra n, (exists comps, build extra n p = Ok comps) <-> usable_configuration o params (Q2R start) (Q2R stop) (dt p).
Proof.
  intros o mo uf sp h user raw params tree d start stop A DI PQ RN NC RL DNE NO RK NS NE B1 B2 B3 DK PR RF PM UK SP HH.
  assert (NN : lookup params ["time"; "dt"] <> Some (VFloat FNaN)) by (intros X; destruct (RN _ _ X) as [q E]; discriminate E).
  destruct (C57_bundled_constructs_pf o mo uf sp h user raw params tree d start stop A DI PQ RL RK NS NE B1 B3 NN PR PM UK SP HH) as (inst & H & <- & TR).
  exists inst. split; [exact H|]. split; [reflexivity|].
  assert (DU : distinct_keys user) by (destruct A; assumption).
  assert (NI : forall path q, number_at (i_params inst) path q -> number_in (i_params inst) path (Q2R q)).
  { intros path q (v & L & N). exists v. split; [exact L|apply number_number, N]. }
  pose proof (construct_inv _ _ _ _ _ _ _ _ H) as (raw' & rs & ch' & decls' & sv & dv & _ & _ & RS & (l & IT & IR) & _ & _ & _ & SA & _ & LS & LD & _).
  assert (YN : forall v x, year_number v = Ok x -> number v = Ok x) by (intros [| | |[]| | |] x; cbn; try discriminate; auto).
  assert (GRID : number_in (i_params inst) ["time"; "start"] (a_start (i_args inst)) /\ number_in (i_params inst) ["time"; "end"] (a_end (i_args inst)) /\
     number_in (i_params inst) ["time"; "dt"] (a_dt (i_args inst))).
  { unfold store_args_of in SA. apply bind_ok in SA as (v1 & L1 & SA). apply bind_ok in SA as (s & YS & SA). apply bind_ok in SA as (v2 & L2 & SA). apply bind_ok in SA as (e & YE & SA).
    apply bind_ok in SA as (v3 & L3 & SA). apply bind_ok in SA as (dd & YD & SA). apply bind_ok in SA as (vs & VS & SA). apply bind_ok in SA as (vs2 & VS2 & SA). apply bind_ok in SA as (vs3 & VS3 & SA).
    apply Ok_inj in SA. rewrite SA. cbn [a_start a_end a_dt]. apply config_lookup in L1, L2, L3. unfold number_in. split; [exists v1; split; [exact L1|exact (YN _ _ YS)]|split; [exists v2; split; [exact L2|exact (YN _ _ YE)]|exists v3; split; [exact L3|exact (YN _ _ YD)]]]. }
  destruct GRID as (G1 & G2 & G3).
  assert (E1 : a_start (i_args inst) = Q2R start) by exact (number_in_fun _ _ _ _ G1 (NI _ _ NS)).
  assert (E2 : a_end (i_args inst) = Q2R stop) by exact (number_in_fun _ _ _ _ G2 (NI _ _ NE)).
  assert (E3 : 0 < a_dt (i_args inst)).
  { pose proof (above_min _ _ _ _ _ ["time"; "dt"] (1 # 2) _ A ltac:(vm_compute; reflexivity) G3) as X. unfold Q2R in X. cbn in X. lra. }
  assert (SE : a_start (i_args inst) <= a_end (i_args inst)) by (rewrite E1, E2; apply Qle_Rle, B2).
  assert (PC : plain_columns o (i_params inst)) by (apply (bundled_columns _ _ _ _ _ mo [] A PR PM); intros r []).
  split; [eapply C60_loadable_pf; eauto|].
  intros p L PB.
  pose proof (C60_configuration_reaches_model_pf _ _ _ _ _ _ _ _ _ DU H NC L) as CF.
  assert (RI : forall r, In r (regions p) -> In r image_regions).
  { destruct (cf_regions _ _ _ CF) as (d' & RL' & M & _). rewrite RL in RL'. injection RL' as <-. intros r R.
    assert (I : In (KStr r) (map fst d)) by (rewrite M; apply in_map, R). apply in_map_iff in I as ([k x] & E & I). cbn in E. subst k.
    destruct (RK _ _ I) as (r' & E & R'). injection E as <-. exact R'. }
  destruct (shipped_pars _ _ _ _ _ _ _ _ _ H DU DI PM RL NO PR NC L RI) as [CAP DMG].
  assert (DT : 0 < dt p) by (rewrite (number_in_fun _ _ _ _ (cf_dt _ _ _ CF) G3); exact E3).
  assert (NR : numeric_ranges p).
  { unfold numeric_ranges. split; [exact DT|].
    pose proof (above_min _ _ _ _ _ ["economics"; "GDP"; "depreciation of capital"] 0 _ A ltac:(vm_compute; reflexivity) (cf_dk _ _ _ CF)) as X1.
    pose proof (above_min _ _ _ _ _ ["economics"; "GDP"; "savings rate"] 0 _ A ltac:(vm_compute; reflexivity) (cf_sr _ _ _ CF)) as X2.
    pose proof (above_min _ _ _ _ _ ["economics"; "MAC"; "beta"] (1 # 100) _ A ltac:(vm_compute; reflexivity) (cf_beta _ _ _ CF)) as X3.
    pose proof (above_min _ _ _ _ _ ["economics"; "MAC"; "LOT_rate"] 0 _ A ltac:(vm_compute; reflexivity) (cf_LOT _ _ _ CF)) as X4.
    pose proof (DK _ (cf_dk _ _ _ CF)) as X5. unfold Q2R in X1, X2, X3, X4. cbn in X1, X2, X3, X4. lra. }
  assert (SD : sound_data p).
  { destruct PB as (P1 & P2 & P3). split; [|split; [|split; [exact P2|split; [exact P3|split]]]].
    - destruct (cf_regions _ _ _ CF) as (d' & RL' & M & _). rewrite RL in RL'. injection RL' as <-. intros X. rewrite X in M. apply DNE. destruct d; [reflexivity|discriminate M].
    - intros r R. split; [apply CAP, R|]. intros t T. apply P1; [exact R|exact T].
    - intros DM r R LG. destruct (DMG DM r R) as (_ & _ & X & _). congruence.
    - intros DM r R LG. destruct (DMG DM r R) as (_ & _ & _ & X). destruct (X LG) as [Y|[Y _]]; lra. }
  split; [exact NR|]. split; [exact SD|]. split.
  { intros DM r R LG. destruct (DMG DM r R) as (_ & _ & _ & X). exact (X LG). }
  intros extra n. rewrite (C18_builds_iff_usable_pf extra n p NR SD).
  apply C61_choices; [exact CF|exact (NI _ _ NS)|exact (NI _ _ NE)|apply Qle_Rle, B2|exact DT|]. intros DM r R. destruct (DMG DM r R) as (X & Y & _). auto.
Qed.

(** *** Whole decades *)
(** Every model year is a decade at which the shipped (or extrapolated) emissions of the region are positive. *)
Definition positive_decades (ssp : string) (p : pars) : Prop :=
  forall t r, (t <= tf p)%nat -> In r (regions p) -> exists j, (j < 25)%nat /\ year p t = IZR (decade j) /\ negative_at ssp r (decade j) = false.

Lemma grid_loaded o disk mo uf sp c user inst p : construct o disk mo uf sp c user = Ok inst -> (forall name, ~ customised (i_params inst) name) -> loads inst p ->
  beginyear p = a_start (i_args inst) /\ dt p = a_dt (i_args inst) /\ regions p = i_regions inst /\
  (forall t, (t <= tf p)%nat -> In t (model_steps (a_start (i_args inst)) (a_end (i_args inst)) (a_dt (i_args inst)))).
Proof.
  intros H NC L. pose proof (construct_inv _ _ _ _ _ _ _ _ H) as (raw & rs & ch' & decls' & start & d & _ & _ & RS & _ & _ & _ & _ & SA & _ & LS & LD & _).
  destruct (C10_grid_values_pf _ _ _ _ _ _ _ _ H (fun name _ => NC name)) as (start' & d' & LS' & LD' & A1 & A2 & _ & A4 & A5).
  assert (start' = start) by congruence. assert (d' = d) by congruence. subst start' d'.
  assert (YN : forall v x, year_number v = Ok x -> number v = Ok x) by (intros [| | |[]| | |] x; cbn; try discriminate; auto).
  assert (GRID : beginyear p = a_start (i_args inst) /\ dt p = a_dt (i_args inst)).
  { unfold store_args_of in SA. apply config_lookup in LS as LS2. apply config_lookup in LD as LD2. rewrite LS2 in SA. cbn [bind] in SA.
    apply bind_ok in SA as (s & YS & SA). apply bind_ok in SA as (ev & LE & SA). apply bind_ok in SA as (e & YE & SA). rewrite LD2 in SA. cbn [bind] in SA.
    apply bind_ok in SA as (dd & YD & SA). apply bind_ok in SA as (vs & VS & SA). apply bind_ok in SA as (vs2 & VS2 & SA). apply bind_ok in SA as (vs3 & VS3 & SA).
    apply Ok_inj in SA. rewrite SA. cbn [a_start a_dt]. split.
    - destruct (ld_beginyear _ _ L) as (v & V & N). unfold data_of in V. rewrite A1 in V. injection V as <-. rewrite (YN _ _ YS) in N. apply Ok_inj in N. auto.
    - destruct (ld_dt _ _ L) as (v & V & N). unfold data_of in V. rewrite A2 in V. injection V as <-. rewrite (YN _ _ YD) in N. apply Ok_inj in N. auto. }
  destruct GRID as [G1 G2]. split; [exact G1|]. split; [exact G2|]. split.
  { pose proof (ld_regions _ _ L) as V. unfold data_of in V. rewrite A5 in V. injection V as V. auto. }
  intros t T. pose proof (ld_tf _ _ L) as V. unfold data_of in V. rewrite A4 in V. injection V as V. unfold model_steps. apply in_seq. lia.
Qed.

(** The shipped data have positive baselines at such decades, also in the model. *)
Lemma C61_decade_baselines_pf : forall o mo uf sp h user inst ssp p,
  distinct_keys user -> default_inputs user -> (forall disk a, In (disk, a) h -> disk = bundled) -> through_points sp -> positive_units uf ->
  construct o bundled mo uf sp (after uf sp h empty_caches) user = Ok inst -> (forall name, ~ customised (i_params inst) name) -> loads inst p ->
  lookup (i_params inst) ["SSP"] = Some (VStr ssp) -> a_start (i_args inst) <= a_end (i_args inst) -> 0 < dt p ->
  regions p <> [] -> (forall r, In r (regions p) -> In r image_regions) -> positive_decades ssp p ->
  positive_baselines p.
Proof.
  intros o mo uf sp h user inst ssp p DU DI HH TP PU H NC L LS SE DP RN RI PD.
  destruct (grid_loaded _ _ _ _ _ _ _ _ _ H NC L) as (G1 & G2 & RG & TF).
  assert (S : forall t r, (t <= tf p)%nat -> In r (regions p) -> 0 < population p t r /\ 0 < baseline_GDP p t r /\ 0 < baseline_emissions p t r).
  { intros t r T R. destruct (PD t r T R) as (j & J & Y & N). unfold year in Y. rewrite G1, G2 in Y.
    assert (R' : In r (i_regions inst)) by (rewrite <- RG; exact R).
    destruct (C58_bundled_signs_pf _ _ _ _ _ _ _ _ DU DI HH TP PU H LS SE t r j (TF t T) R' (RI r R) J Y) as [K1 K2]. rewrite N in K2.
    assert (SER : forall name f, series_is inst name f -> (exists l x, assoc name (i_data inst) = Ok (ByTimeAndRegion l) /\ In ((t, r), x) l /\ 0 < x) -> 0 < f t r).
    { intros name f (l & A & F) (l' & x & A' & I & X). unfold data_of in A. rewrite A in A'. injection A' as <-. rewrite (F _ _ _ I). exact X. }
    split; [|split].
    - apply (SER "population"); [exact (ld_population _ _ L)|]. apply K1; [cbn; auto|apply NC].
    - apply (SER "baseline_GDP"); [exact (ld_GDP _ _ L)|]. apply K1; [cbn; auto|apply NC].
    - apply (SER "baseline_emissions"); [exact (ld_emissions _ _ L)|]. apply K2, NC. }
  split; [|split].
  - intros r t R T. destruct (S t r T R) as (X & Y & _). auto.
  - intros r R. apply (S 0%nat r ltac:(lia) R).
  - assert (C : forall t r, (t <= tf p)%nat -> In r (regions p) -> 0 <= cumulative_baseline_emissions p t r /\ ((0 < t)%nat -> 0 < cumulative_baseline_emissions p t r)).
    { induction t as [|t IH]; intros r T R; [cbn; split; [lra|lia]|]. destruct (IH r ltac:(lia) R) as [IH1 _].
      pose proof (S t r ltac:(lia) R) as (_ & _ & E1). pose proof (S (Datatypes.S t) r T R) as (_ & _ & E2). cbn [cumulative_baseline_emissions].
      assert (Y : year p (Datatypes.S t) - year p t = dt p) by (unfold year; rewrite S_INR; ring). rewrite Y.
      assert (0 < dt p * (baseline_emissions p t r + baseline_emissions p (Datatypes.S t) r) / 2) by (apply Rmult_lt_0_compat; [apply Rmult_lt_0_compat; lra|lra]). split; [lra|intros _; lra]. }
    intros t [T0' T1]. unfold cumulative_global_baseline_emissions. apply Rsum_pos; [exact RN|]. intros r R. apply (C t r T1 R), T0'.
Qed.

(** Such decades: a horizon from a decade in steps of 10 or 20 years, for SSP2, SSP3 and SSP5, or for all up to 2100. *)
Definition whole_decades (params : pyval) (start : Q) : Prop :=
  exists (a k : Z) (step : Q), (start == inject_Z (10 * a))%Q /\ number_at params ["time"; "dt"] step /\ (step == inject_Z (10 * k))%Q.
Definition no_negative_emissions (params : pyval) (stop : Q) : Prop :=
  (exists ssp, lookup params ["SSP"] = Some (VStr ssp) /\ In ssp ["SSP2"; "SSP3"; "SSP5"]) \/ (stop <= 2090)%Q.
Lemma Q2R_inject z : Q2R (inject_Z z) = IZR z.
Proof. unfold Q2R, inject_Z. cbn. field. Qed.
Lemma negative_none ssp r y : In ssp ["SSP2"; "SSP3"; "SSP5"] \/ (y < 2110)%Z -> negative_at ssp r y = false.
Proof.
  intros H. unfold negative_at. apply Bool.not_true_is_false. intros E. apply existsb_exists in E as ([[s r'] y'] & I & E). cbn [fst snd] in E.
  apply andb_prop in E as [E Z]. apply andb_prop in E as [E _]. apply String.eqb_eq in E. apply Z.leb_le in Z. subst s.
  destruct H as [H|H].
  - cbn [In] in H. destruct H as [<-|[<-|[<-|[]]]]; cbn [In negative_from] in I; repeat (destruct I as [I|I]; [discriminate I|]); destruct I.
  - cbn [In negative_from] in I. repeat (destruct I as [I|I]; [injection I as _ _ <-; lia|]). destruct I.
Qed.
Lemma C61_decades o params p start stop ssp : configured o params p -> number_at params ["time"; "start"] start -> number_at params ["time"; "end"] stop ->
  (2010 <= start)%Q -> (start <= stop)%Q -> (stop <= 2200)%Q -> 0 < dt p <= 20 -> whole_decades params start -> no_negative_emissions params stop ->
  lookup params ["SSP"] = Some (VStr ssp) -> positive_decades ssp p.
Proof.
  intros CF NS NE B1 B2 B3 [D1 D2] (a & k & step & SQ & ND & DQ) NN LS t r T _.
  assert (NI : forall path q, number_at params path q -> number_in params path (Q2R q)) by (intros path q (v & L & N); exists v; split; [exact L|apply number_number, N]).
  assert (B : beginyear p = IZR (10 * a)) by (rewrite <- Q2R_inject, <- (Qeq_eqR _ _ SQ); exact (number_in_fun _ _ _ _ (cf_start _ _ _ CF) (NI _ _ NS))).
  assert (D : dt p = IZR (10 * k)) by (rewrite <- Q2R_inject, <- (Qeq_eqR _ _ DQ); exact (number_in_fun _ _ _ _ (cf_dt _ _ _ CF) (NI _ _ ND))).
  destruct (cf_end _ _ _ CF) as (stop' & NE' & G). assert (stop' = Q2R stop) by exact (number_in_fun _ _ _ _ NE' (NI _ _ NE)). subst stop'.
  apply Qle_Rle in B1, B2, B3. rewrite (Qeq_eqR _ _ SQ) in B1, B2. change 2010%Q with (inject_Z 2010) in B1. change 2200%Q with (inject_Z 2200) in B3. rewrite !Q2R_inject in *.
  specialize (G ltac:(lra) D1). unfold year in G.
  assert (Y : year p t = IZR (10 * a + Z.of_nat t * (10 * k))) by (unfold year; rewrite B, D, plus_IZR, (mult_IZR (Z.of_nat t)), <- INR_IZR_INZ; reflexivity).
  assert (LE : year p t <= beginyear p + INR (tf p) * dt p) by (unfold year; apply Rplus_le_compat_l, Rmult_le_compat_r; [lra|apply le_INR, T]).
  assert (GE : beginyear p <= year p t) by (unfold year; assert (0 <= INR t * dt p) by (apply Rmult_le_pos; [apply pos_INR|lra]); lra).
  assert (Z1 : (201 <= a + Z.of_nat t * k)%Z).
  { assert (2010 <= 10 * a + Z.of_nat t * (10 * k))%Z by (apply le_IZR; rewrite <- Y; lra). lia. }
  assert (Z2 : (10 * (a + Z.of_nat t * k) < 2220)%Z) by (apply lt_IZR; replace (10 * (a + Z.of_nat t * k))%Z with (10 * a + Z.of_nat t * (10 * k))%Z by ring; rewrite <- Y; lra).
  exists (Z.to_nat (a + Z.of_nat t * k - 201)). split; [lia|].
  assert (DE : decade (Z.to_nat (a + Z.of_nat t * k - 201)) = (10 * a + Z.of_nat t * (10 * k))%Z) by (unfold decade; rewrite Z2Nat.id by lia; ring). rewrite DE.
  split; [exact Y|]. apply negative_none. destruct NN as [(s & S1 & S2)|NN]; [left; congruence|right].
  apply Qle_Rle in NN. change 2090%Q with (inject_Z 2090) in NN. rewrite Q2R_inject in NN. apply lt_IZR. rewrite <- Y. lra.
Qed.
(** With such a horizon nothing about the baselines is left to assume. *)
Lemma C61_whole_decades_pf : forall o mo uf sp h user raw params tree d start stop,
  accepted o user raw params tree -> default_inputs user -> plain_quantities raw -> real_numbers params -> (forall name, ~ customised params name) ->
  lookup params ["regions"] = Some (VDict d) -> d <> [] -> no_own_values d -> (forall k x, In (k, x) d -> exists r, k = KStr r /\ In r image_regions) ->
  number_at params ["time"; "start"] start -> number_at params ["time"; "end"] stop -> (2010 <= start)%Q -> (start <= stop)%Q -> (stop <= 2200)%Q ->
  (forall x, number_in params ["economics"; "GDP"; "depreciation of capital"] x -> x < 1) -> whole_decades params start -> no_negative_emissions params stop ->
  prints_quantiles o -> rejects_false o -> (forall l, Permutation l (mo l)) -> units_known uf -> positive_units uf -> spline_defined sp -> through_points sp ->
  (forall disk a, In (disk, a) h -> disk = bundled) ->
  exists inst, construct o bundled mo uf sp (after uf sp h empty_caches) user = Ok inst /\ i_params inst = params /\ (exists p, loads inst p) /\
    forall p extra n, loads inst p ->
      ((exists comps, build extra n p = Ok comps) <-> usable_configuration o params (Q2R start) (Q2R stop) (dt p)).
Proof.
  intros o mo uf sp h user raw params tree d start stop A DI PQ RN NC RL DNE NO RK NS NE B1 B2 B3 DK WD NN PR RF PM UK PU SP TP HH.
  destruct (C61_builds_iff_usable_pf o mo uf sp h user raw params tree d start stop A DI PQ RN NC RL DNE NO RK NS NE B1 B2 B3 DK PR RF PM UK SP HH) as (inst & H & PE & LE & K).
  exists inst. split; [exact H|]. split; [exact PE|]. split; [exact LE|]. intros p extra n L.
  assert (DU : distinct_keys user) by (destruct A; assumption). subst params.
  pose proof (C60_configuration_reaches_model_pf _ _ _ _ _ _ _ _ _ DU H NC L) as CF.
  destruct (bounded_number _ _ _ _ _ ["time"; "dt"] _ _ A ltac:(vm_compute; reflexivity)) as (dv & DL & DB).
  assert (DT : 0 < dt p <= 20).
  { destruct (cf_dt _ _ _ CF) as (v & V & N). rewrite DL in V. injection V as <-. destruct DB as [->|(q & Q1 & Q2 & Q3)]; [discriminate N|].
    rewrite (number_number _ _ Q1) in N. apply Ok_inj in N. rewrite N. apply Qle_Rle in Q2, Q3. unfold Q2R in Q2 at 1, Q3 at 2. cbn in Q2, Q3. lra. }
  destruct (ssp_value _ _ _ _ _ A) as (ssp & S1 & _).
  destruct (grid_loaded _ _ _ _ _ _ _ _ _ H NC L) as (G1 & G2 & RG & TF).
  assert (NI : forall path q, number_at (i_params inst) path q -> number_in (i_params inst) path (Q2R q)) by (intros path q (v & LL & N); exists v; split; [exact LL|apply number_number, N]).
  apply K; [exact L|].
  destruct (cf_regions _ _ _ CF) as (d' & RL' & M & _). rewrite RL in RL'. injection RL' as <-.
  refine (C61_decade_baselines_pf o mo uf sp h user inst ssp p DU DI HH TP PU H NC L S1 _ (proj1 DT) _ _ (C61_decades _ _ _ _ _ _ CF NS NE B1 B2 B3 DT WD NN S1)).
  - pose proof (construct_inv _ _ _ _ _ _ _ _ H) as (raw' & rs & ch' & decls' & sv & dv' & _ & _ & _ & _ & _ & _ & _ & SA & _).
    assert (YN : forall v x, year_number v = Ok x -> number v = Ok x) by (intros [| | |[]| | |] x; cbn; try discriminate; auto).
    assert (GG : number_in (i_params inst) ["time"; "start"] (a_start (i_args inst)) /\ number_in (i_params inst) ["time"; "end"] (a_end (i_args inst))).
    { unfold store_args_of in SA. apply bind_ok in SA as (v1 & L1 & SA). apply bind_ok in SA as (s & YS & SA). apply bind_ok in SA as (v2 & L2 & SA). apply bind_ok in SA as (e & YE & SA).
      apply bind_ok in SA as (v3 & L3 & SA). apply bind_ok in SA as (dd & YD & SA). apply bind_ok in SA as (vs & VS & SA). apply bind_ok in SA as (vs2 & VS2 & SA). apply bind_ok in SA as (vs3 & VS3 & SA).
      apply Ok_inj in SA. rewrite SA. cbn [a_start a_end]. apply config_lookup in L1, L2. unfold number_in. split; [exists v1; split; [exact L1|exact (YN _ _ YS)]|exists v2; split; [exact L2|exact (YN _ _ YE)]]. }
    destruct GG as [X1 X2]. rewrite (number_in_fun _ _ _ _ X1 (NI _ _ NS)), (number_in_fun _ _ _ _ X2 (NI _ _ NE)). apply Qle_Rle, B2.
  - intros X. rewrite X in M. apply DNE. destruct d; [reflexivity|discriminate M].
  - intros r R. assert (I : In (KStr r) (map fst d)) by (rewrite M; apply in_map, R). apply in_map_iff in I as ([kk x] & E & I). cbn in E. subst kk.
    destruct (RK _ _ I) as (r' & E & R'). injection E as <-. exact R'.
Qed.
