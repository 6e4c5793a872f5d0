(** Facts for C57: construction with the bundled files. *)
From Verif Require Import PyBase NestedDict Parsers Config ConfigDefault NestedDictFacts ConfigFacts ConfigFacts2 ConfigSpec RefFacts ConfigBridge ConfigLemmas
  TimeGrid DataStore RegionalParams Instantiate InstFacts TimeGridLemmas DataStoreLemmas RegionalParamsLemmas InstantiateLemmas ConstructFacts BundledData.
From Coq Require Import QArith Qreals Permutation Reals Lra Lia.
Import ListNotations.
Open Scope string_scope.
Open Scope list_scope.

(** *** The parsed configuration as a function of its values *)
Definition value_at (raw : pyval) (q : list key) : pyval := match get_nested raw q with Ok v => v | Err _ => VNone end.
Definition skeleton (f : list key -> pyval) : result pyval :=
  fold_result (fun s q => set_nested s q (f q)) (map fst (leaves schema_leaf [] config_default)) (VDict []).

Lemma parse_fold_set o user f L : (forall q n pr v, In (q, n) L -> create_parser n = Ok pr -> parser_get o pr user q = Ok v -> f q = v) ->
  forall s t raw tree, fold_result (parse_leaf o user) L (s, t) = Ok (raw, tree) ->
  fold_result (fun s q => set_nested s q (f q)) (map fst L) s = Ok raw.
Proof.
  induction L as [|[q n] L IH]; intros H s t raw tree E; cbn in E; [injection E as <- _; reflexivity|].
  destruct (create_parser n) as [pr|] eqn:C; [|discriminate]. cbn [bind] in E.
  destruct (ptree_set t q pr) as [t'|]; [|discriminate]. cbn [bind] in E.
  destruct (parser_get o pr user q) as [v|] eqn:G; [|discriminate]. cbn [bind] in E.
  destruct (set_nested s q v) as [s'|] eqn:S; [|discriminate]. cbn [bind] in E.
  cbn [map fst fold_result]. rewrite (H q n pr v) by (auto using in_eq). rewrite S. cbn [bind]. eapply IH; [|exact E].
  intros; eapply H; eauto using in_cons.
Qed.
Lemma raw_skeleton o user raw params tree : accepted o user raw params tree -> skeleton (value_at raw) = Ok raw.
Proof.
  intros (_ & C & _). apply check_params_parse in C. pose proof (parse_params_inv o config_default user _ (proj1 (distinct_wfb _) default_distinct) C) as [I1 _].
  unfold skeleton. apply (parse_fold_set o user) with (t := PNode []) (tree := tree); [|exact C].
  intros q n pr v I CP G. destruct (I1 _ _ I) as (pr' & v' & H1 & H2 & H3 & H4). unfold value_at.
  cbn [fst] in *. rewrite H1 in CP. injection CP as <-. 
  rewrite H2 in G. injection G as <-. rewrite H3. reflexivity.
Qed.
Definition variables_path (v : string) : list key := [KStr "input"; KStr "variables"; KStr v].
Lemma skeleton_variables f : match skeleton f with
  | Ok raw => lookup raw ["input"; "variables"] = Some (VDict [(KStr "GDP", f (variables_path "GDP"));
      (KStr "emissions", f (variables_path "emissions")); (KStr "population", f (variables_path "population"))])
  | Err _ => False end.
Proof. vm_compute. reflexivity. Qed.

(** *** Values with the same shape and the same leaves are equal *)
Lemma shapes_fst d : map fst (shapes d) = map fst d.
Proof. unfold shapes. rewrite map_map. reflexivity. Qed.
Lemma same_shape_ext v : forall w, wfb v = true -> shape v = shape w -> (forall q n, dict_get v q = Some n -> is_dict n = false -> dict_get w q = Some n) -> v = w.
Proof.
  induction v as [| | | | |l IHl|d IH] using pyval_ind'; intros w W S H; try (specialize (H [] _ eq_refl eq_refl); cbn in H; congruence).
  destruct w as [| | | | | |e]; try (rewrite shape_dict in S; discriminate S). rewrite !shape_dict in S. injection S as S.
  apply wfb_dict in W as [ND W]. f_equal. revert e S H. induction d as [|[k x] d IHd]; intros e S H.
  - destruct e; [reflexivity|discriminate S].
  - destruct e as [|[k' y] e]; [discriminate S|]. cbn in S. injection S as -> Sx Sd. cbn in ND. inversion ND as [|? ? N1 N2]; subst.
    inversion IH as [|? ? I1 I2]; subst. cbn [snd] in I1.
    assert (W1 : wfb x = true) by (apply (W k' x); left; reflexivity).
    assert (x = y).
    { apply I1; auto. intros q n G L. specialize (H (k' :: q) n). cbn in H. rewrite !key_eqb_refl in H. auto. }
    subst y. f_equal. apply IHd; auto.
    + intros k0 x0 I0. apply (W k0 x0). right. exact I0.
    + intros q n G L. destruct q as [|k0 q]; [cbn in G; injection G as <-; discriminate L|].
      specialize (H (k0 :: q) n). cbn in G, H. destruct (key_eqb k' k0) eqn:K; [|apply H; auto].
      exfalso. apply key_eqb_eq in K. subst k0. apply N1. destruct (dget d k') as [z|] eqn:D; [|discriminate G].
      clear - D. induction d as [|[k1 z1] d IHd]; [discriminate D|]. cbn in D. destruct (key_eqb k1 k') eqn:K; [apply key_eqb_eq in K; subst; left; reflexivity|right; auto].
Qed.

(** *** Default values *)
Definition parsed_default (o : oracles) (p : list string) : result pyval :=
  match template_node p with Some n => do pr <- create_parser n; parse o pr (default_of n) | None => Err KeyError end.
Lemma raw_default o user raw params tree p v : accepted o user raw params tree -> lookup user p = None -> parsed_default o p = Ok v ->
  lookup raw p = Some v.
Proof.
  intros A U D. unfold parsed_default in D. destruct (template_node p) as [n|] eqn:T; [|discriminate].
  destruct (accepted_param _ _ _ _ _ _ _ A (template_node_ok _ _ T)) as (pr & w & C & _ & L & H).
  rewrite C in D. cbn [bind] in D. rewrite U, D in H. injection H as <-. exact L.
Qed.
Definition file_entry (file type : string) : pyval := VDict [(KStr "filename", VStr file); (KStr "regionstype", VStr type)].
Definition default_files : pyval := VDict
  [(KStr "economics", file_entry "inputdata/regionalparams/economics.csv" "IMAGE26");
   (KStr "MAC", file_entry "inputdata/regionalparams/mac.csv" "IMAGE26");
   (KStr "COACCH", file_entry "inputdata/regionalparams/COACCH.csv" "COACCH");
   (KStr "mortality", file_entry "inputdata/regionalparams/mortality.csv" "IMAGE26")].
Definition mapping_entry (b file : string) : pyval := VDict
  [(KStr "regionstype1", VStr "IMAGE26"); (KStr "regionstype2", VStr b); (KStr "conversiontable", VStr file)].
Definition default_mappings : pyval := VList
  [mapping_entry "COACCH" "inputdata/regions/IMAGE26_COACCH.csv"; mapping_entry "ADRICE2010" "inputdata/regions/IMAGE26_ADRICE2010.csv";
   mapping_entry "ADRICE2012" "inputdata/regions/IMAGE26_ADRICE2012.csv"].
Lemma default_type_value o : parsed_default o ["regionstype"] = Ok (VStr "IMAGE26").
Proof. vm_compute. reflexivity. Qed.
Lemma default_files_value o : parsed_default o ["regional_parameter_files"] = Ok default_files.
Proof. vm_compute. reflexivity. Qed.
Lemma default_mappings_value o : parsed_default o ["regionsmappings"] = Ok default_mappings.
Proof. vm_compute. reflexivity. Qed.

Definition source_entry (variable unit scenario : string) : pyval := VDict
  [(KStr "variable", VStr variable); (KStr "unit", VStr unit); (KStr "scenario", VStr scenario); (KStr "model", VStr "IMAGE");
   (KStr "file", VStr "inputdata/data/data_IMAGE_SSP.csv")].
Definition variables_entry (scenario : string) : pyval := VDict
  [(KStr "GDP", source_entry "GDP|PPP" "currency_unit" scenario);
   (KStr "emissions", source_entry "Emissions|CO2" "emissionsrate_unit" scenario);
   (KStr "population", source_entry "Population" "population_unit" scenario)].
Lemma default_variables o : parsed_default o ["input"; "variables"; "GDP"] = Ok (source_entry "GDP|PPP" "currency_unit" "{SSP}-Ref-SPA0-V17") /\
  parsed_default o ["input"; "variables"; "emissions"] = Ok (source_entry "Emissions|CO2" "emissionsrate_unit" "{SSP}-Ref-SPA0-V17") /\
  parsed_default o ["input"; "variables"; "population"] = Ok (source_entry "Population" "population_unit" "{SSP}-Ref-SPA0-V17").
Proof. vm_compute. auto. Qed.

(** The inputs a user leaves as they are. *)
Definition default_inputs (user : pyval) : Prop :=
  forall p, In p [["regionstype"]; ["regionsmappings"]; ["regional_parameter_files"];
     ["input"; "variables"; "GDP"]; ["input"; "variables"; "emissions"]; ["input"; "variables"; "population"]] -> lookup user p = None.

Lemma raw_variables o user raw params tree : accepted o user raw params tree -> default_inputs user ->
  lookup raw ["input"; "variables"] = Some (variables_entry "{SSP}-Ref-SPA0-V17").
Proof.
  intros A D. pose proof (raw_skeleton _ _ _ _ _ A) as S. pose proof (skeleton_variables (value_at raw)) as V. rewrite S in V. rewrite V.
  destruct (default_variables o) as (D1 & D2 & D3). unfold variables_entry.
  assert (K : forall x v, lookup raw ["input"; "variables"; x] = Some v -> value_at raw (variables_path x) = v).
  { intros x v H. apply lookup_get in H. unfold value_at, variables_path. cbn [keys_of map] in H. rewrite H. reflexivity. }
  assert (U1 : lookup user ["input"; "variables"; "GDP"] = None) by (apply D; cbn; auto 10).
  assert (U2 : lookup user ["input"; "variables"; "emissions"] = None) by (apply D; cbn; auto 10).
  assert (U3 : lookup user ["input"; "variables"; "population"] = None) by (apply D; cbn; auto 10).
  rewrite (K _ _ (raw_default _ _ _ _ _ _ _ A U1 D1)), (K _ _ (raw_default _ _ _ _ _ _ _ A U2 D2)), (K _ _ (raw_default _ _ _ _ _ _ _ A U3 D3)). reflexivity.
Qed.

Lemma dict_get_strings v : all_keys string_key v -> forall q n, dict_get v q = Some n -> exists p, q = keys_of p.
Proof.
  intros K q. revert v K. induction q as [|k q IH]; intros v K n H; [exists []; reflexivity|]. destruct v as [| | | | | |d]; try discriminate. cbn in H.
  destruct (dget d k) as [x|] eqn:D; [|discriminate]. destruct (all_keys_in _ _ _ _ K (dget_In _ _ _ D)) as [K1 K2].
  destruct (IH _ K2 _ H) as [p ->]. destruct k as [k|]; [|destruct K1]. exists (k :: p). reflexivity.
Qed.
Lemma dict_get_app v q r : dict_get v (q ++ r) = match dict_get v q with Some x => dict_get x r | None => None end.
Proof. revert v. induction q as [|k q IH]; intros v; [reflexivity|]. cbn. destruct v as [| | | | | |d]; try reflexivity. destruct (dget d k); [apply IH|reflexivity]. Qed.
Lemma lookup_app v p q : lookup v (p ++ q) = match lookup v p with Some x => lookup x q | None => None end.
Proof. rewrite !lookup_dict_get. unfold keys_of. rewrite map_app, dict_get_app. destruct (dict_get v (map KStr p)); [rewrite lookup_dict_get|]; reflexivity. Qed.
Lemma final_ext o user raw params tree p v v' : accepted o user raw params tree -> lookup raw p = Some v -> shape v' = shape v ->
  wfb v' = true -> all_keys string_key v' ->
  (forall q n, q <> [] -> lookup v' q = Some n -> is_dict n = false -> lookup params (p ++ q) = Some n) ->
  is_dict v' = true -> lookup params p = Some v'.
Proof.
  intros A L S W K H D. destruct (final_shape _ _ _ _ _ _ _ A L) as (w & LW & SW). rewrite LW. f_equal. symmetry.
  apply same_shape_ext; [exact W|congruence|]. intros q n G N. destruct (dict_get_strings _ K _ _ G) as [r ->].
  assert (NE : r <> []) by (intros ->; cbn in G; injection G as <-; congruence).
  rewrite <- lookup_dict_get in *. specialize (H r n NE G N). rewrite lookup_app, LW in H. exact H.
Qed.

Lemma final_type o user raw params tree : accepted o user raw params tree -> default_inputs user -> lookup params ["regionstype"] = Some (VStr "IMAGE26").
Proof.
  intros A D. pose proof (accepted_distinct _ _ _ _ _ A) as DD. assert (L : lookup raw ["regionstype"] = Some (VStr "IMAGE26")).
  { eapply raw_default; [exact A| |apply default_type_value]. apply D; cbn; auto 10. }
  destruct A as (_ & _ & R). eapply C07_no_reference_unchanged_pf; eauto; [discriminate|]. intros s E. injection E as <-. apply has_brace_false. reflexivity.
Qed.
Lemma final_mappings o user raw params tree : accepted o user raw params tree -> default_inputs user -> lookup params ["regionsmappings"] = Some default_mappings.
Proof.
  intros A D. pose proof (accepted_distinct _ _ _ _ _ A) as DD. assert (L : lookup raw ["regionsmappings"] = Some default_mappings).
  { eapply raw_default; [exact A| |apply default_mappings_value]. apply D; cbn; auto 10. }
  destruct A as (_ & _ & R). eapply C07_no_reference_unchanged_pf; eauto; [discriminate|]. intros s E. discriminate E.
Qed.
Lemma final_files o user raw params tree : accepted o user raw params tree -> default_inputs user -> lookup params ["regional_parameter_files"] = Some default_files.
Proof.
  intros A D. pose proof (accepted_distinct _ _ _ _ _ A) as DD. assert (L : lookup raw ["regional_parameter_files"] = Some default_files).
  { eapply raw_default; [exact A| |apply default_files_value]. apply D; cbn; auto 10. }
  apply (final_ext _ _ _ _ _ _ _ default_files A L); [reflexivity|reflexivity|cbn; tauto| |reflexivity].
  intros q n NE Q N. destruct A as (_ & _ & R).
  assert (LR : lookup raw (["regional_parameter_files"] ++ q) = Some n) by (rewrite lookup_app, L; exact Q).
  eapply C07_no_reference_unchanged_pf; eauto; [discriminate|]. intros s ->.
  assert (DF : distinct_keys default_files) by (apply distinct_wfb; reflexivity).
  pose proof (leaf_in _ _ _ DF NE Q N) as I.
  assert (K : forallb (fun qn => match snd qn with VStr s => negb (has_brace s) | _ => true end) (leaves value_leaf [] default_files) = true) by reflexivity.
  rewrite forallb_forall in K. specialize (K _ I). cbn [snd] in K. apply has_brace_false. destruct (has_brace s); [discriminate K|reflexivity].
Qed.
Definition scenario_of (ssp : string) : string := (ssp ++ "-Ref-SPA0-V17")%string.
Lemma final_variables o user raw params tree ssp : accepted o user raw params tree -> default_inputs user ->
  lookup raw ["SSP"] = Some (VStr ssp) -> no_brace ssp ->
  lookup params ["input"; "variables"] = Some (variables_entry (scenario_of ssp)).
Proof.
  intros A D LS NB. pose proof (accepted_distinct _ _ _ _ _ A) as DD. pose proof (raw_variables _ _ _ _ _ A D) as L.
  apply (final_ext _ _ _ _ _ _ _ (variables_entry (scenario_of ssp)) A L); [reflexivity|reflexivity|cbn; tauto| |reflexivity].
  intros q n NE Q N. destruct A as (_ & _ & R).
  assert (DF : distinct_keys (variables_entry (scenario_of ssp))) by (apply distinct_wfb; reflexivity).
  pose proof (leaf_in _ _ _ DF NE Q N) as I. cbn -[scenario_of] in I.
  assert (F : forall p s, lookup (variables_entry "{SSP}-Ref-SPA0-V17") p = Some (VStr s) -> has_brace s = false ->
     lookup params (["input"; "variables"] ++ p) = Some (VStr s)).
  { intros p s Hp Hs. apply (C07_no_reference_unchanged_pf raw params); auto; [discriminate|rewrite lookup_app, L; exact Hp|].
    intros s' E; injection E as <-; apply has_brace_false, Hs. }
  assert (G : forall p, lookup (variables_entry "{SSP}-Ref-SPA0-V17") p = Some (VStr "{SSP}-Ref-SPA0-V17") ->
     lookup params (["input"; "variables"] ++ p) = Some (VStr (scenario_of ssp))).
  { intros p Hp. apply (C07_reference_resolved_pf raw params (["input"; "variables"] ++ p) "" "-Ref-SPA0-V17" ["SSP"] ssp); auto.
    - discriminate.
    - discriminate.
    - constructor; [reflexivity|constructor].
    - exact Logic.I.
    - apply has_brace_false. reflexivity.
    - split; [discriminate|]. cbn. repeat split; lia.
    - rewrite lookup_app, L. exact Hp. }
  repeat (destruct I as [I|I]; [apply pair_equal_spec in I as [I1 I2]; subst n; change (keys_of q) with (map KStr q) in I1;
    match type of I1 with ?l = _ => let p := eval cbn in (map (fun k => match k with KStr s => s | KInt _ => "" end) l) in
       assert (q = p) by (apply keys_of_inj; symmetry; exact I1); subst q end;
    first [apply G; reflexivity | apply F; reflexivity]|]).
  destruct I.
Qed.

(** *** Parameter files *)
Definition image_pairs : list (pyval * pyval) :=
  match pairs_of image_coacch "COACCH" "IMAGE26" (t_rows image_coacch) with Ok l => l | Err _ => [] end.
Definition bundled_categories : list (string * container) :=
  [("economics", Direct economics); ("MAC", Direct mac); ("COACCH", Mapped coacch image_pairs); ("mortality", Direct mortality)].
Lemma bundled_store o user raw params tree : accepted o user raw params tree -> default_inputs user ->
  param_store bundled params = Ok {| st_params := params; st_categories := bundled_categories |}.
Proof.
  intros A D. unfold param_store.
  rewrite (proj2 (config_lookup _ _ _) (final_type _ _ _ _ _ A D)). cbn [bind].
  rewrite (proj2 (config_lookup _ _ _) (final_mappings _ _ _ _ _ A D)). cbn [bind].
  rewrite (proj2 (config_lookup _ _ _) (final_files _ _ _ _ _ A D)). cbn [bind].
  vm_compute. reflexivity.
Qed.
Definition image_regions : list string :=
  ["CAN"; "USA"; "MEX"; "RCAM"; "BRA"; "RSAM"; "NAF"; "WAF"; "EAF"; "SAF"; "WEU"; "CEU"; "TUR"; "UKR"; "STAN"; "RUS"; "ME"; "INDIA"; "KOR"; "CHN"; "SEAS"; "INDO"; "JAP"; "OCE"; "RSAS"; "RSAF"].

Definition cell_ok (v : pyval) : bool := match py_float v with Ok _ | Err ValueError => true | Err _ => false end.
Lemma direct_get mo data col region : String.eqb col "region" = false ->
  match index_of col (t_columns data), filter (matches data (VStr region)) (t_rows data) with
  | Ok n, [row] => match nth_error row n with Some v => cell_ok v | None => false end
  | _, _ => false end = true -> exists v, container_get mo (Direct data) col region = Ok v.
Proof.
  intros C H. unfold container_get, locate. rewrite C. destruct (index_of col (t_columns data)) as [n|]; [|discriminate]. cbn [bind].
  destruct (filter _ _) as [|row [|]]; try discriminate. destruct (nth_error row n) as [v|]; [|discriminate]. cbn [bind].
  unfold cell_ok in H. destruct (py_float v) as [|[]]; try discriminate; eauto.
Qed.
Lemma mean_ok l : cell_ok (mean l) = true.
Proof. unfold mean. destruct (flat_map q_of l); reflexivity. Qed.
Lemma first_ok l : forallb cell_ok l = true -> cell_ok (first l) = true.
Proof.
  intros H. unfold first. destruct (find _ l) as [v|] eqn:F; [|reflexivity]. apply find_some in F as [F _]. rewrite forallb_forall in H. auto.
Qed.
Lemma mapped_get mo data pairs col region : (forall l, Permutation l (mo l)) -> String.eqb col "region" = false ->
  (if index_of col (t_columns data) then true else false) = true ->
  existsb (fun ab => py_eqb (snd ab) (VStr region)) pairs = true -> forallb (forallb cell_ok) (t_rows data) = true ->
  exists v, container_get mo (Mapped data pairs) col region = Ok v.
Proof.
  intros PM C N E K. unfold container_get, locate. rewrite C. destruct (index_of col (t_columns data)) as [n|]; [|discriminate]. cbn [bind].
  set (merged := outer_merge mo data pairs).
  assert (CK : forall r, In r merged -> cell_ok (nth n (snd r) nan) = true).
  { intros [t row] I. unfold merged, outer_merge in I. apply (Permutation_in _ (Permutation_sym (PM _))) in I. cbn [snd].
    assert (R : forall row, In row (t_rows data) -> cell_ok (nth n row nan) = true).
    { intros rw Hrw. rewrite forallb_forall in K. specialize (K _ Hrw). rewrite forallb_forall in K.
      destruct (nth_in_or_default n rw nan) as [X|X]; [apply K, X|rewrite X; reflexivity]. }
    apply in_app_iff in I as [I|I].
    - apply in_flat_map in I as ([a b] & _ & I). cbn [fst snd] in I. destruct (filter _ _) as [|r0 rs] eqn:F in I.
      + destruct I as [I|[]]. injection I as _ <-. rewrite nth_blank. reflexivity.
      + apply in_map_iff in I as (rw & I & J). injection I as _ ->. rewrite <- F in J. apply filter_In in J as [J _]. auto.
    - apply in_map_iff in I as (rw & I & J). injection I as _ ->. apply filter_In in J as [J _]. auto. }
  assert (NE : exists r, In r (filter (fun r => py_eqb (fst r) (VStr region)) merged)).
  { apply existsb_exists in E as ([a b] & E1 & E2). cbn [snd] in E2.
    assert (exists row, In (b, row) merged) as [row Hr].
    { unfold merged, outer_merge. destruct (filter (matches data a) (t_rows data)) as [|r0 rs] eqn:F.
      - exists (map (fun _ => nan) (t_columns data)). apply (Permutation_in _ (PM _)). apply in_app_iff. left. apply in_flat_map. exists (a, b). split; [exact E1|].
        cbn [fst snd]. rewrite F. left. reflexivity.
      - exists r0. apply (Permutation_in _ (PM _)). apply in_app_iff. left. apply in_flat_map. exists (a, b). split; [exact E1|].
        cbn [fst snd]. rewrite F. left. reflexivity. }
    exists (b, row). apply filter_In. auto. }
  destruct (filter _ merged) as [|g0 gs] eqn:G; [destruct NE as [? []]|]. cbn [bind].
  set (v := if forallb is_number _ then _ else _).
  assert (V : cell_ok v = true).
  { unfold v. destruct (forallb is_number _); [apply mean_ok|]. apply first_ok. apply forallb_forall. intros x X. apply in_map_iff in X as (r & <- & I).
    apply CK. rewrite <- G in I. apply filter_In in I as [I _]. exact I. }
  unfold cell_ok in V. destruct (py_float v) as [|[]]; try discriminate; eauto.
Qed.

(** *** The columns the default files offer *)
(** The damage quantiles of the default configuration, and python's text for them. *)
Definition quantile_labels : list (Q * string) :=
  [((25 # 1000)%Q, "0.025"); ((5 # 100)%Q, "0.05"); ((16 # 100)%Q, "0.16"); ((25 # 100)%Q, "0.25"); ((33 # 100)%Q, "0.33"); ((5 # 10)%Q, "0.5");
   ((67 # 100)%Q, "0.67"); ((75 # 100)%Q, "0.75"); ((84 # 100)%Q, "0.84"); ((95 # 100)%Q, "0.95"); ((975 # 1000)%Q, "0.975")].
Definition prints_quantiles (o : oracles) : Prop :=
  forall q l q', In (q, l) quantile_labels -> (q' == q)%Q -> o_repr o (VFloat (FFin q')) = l.
Definition labels : list string := map snd quantile_labels.

Lemma quantile_value o user raw params tree : accepted o user raw params tree -> prints_quantiles o ->
  exists v, lookup params ["economics"; "damages"; "quantile"] = Some v /\ In (show o v) labels.
Proof.
  intros A PQ.
  destruct (template_node ["economics"; "damages"; "quantile"]) as [n|] eqn:T; [|vm_compute in T; discriminate T].
  pose proof (template_node_ok _ _ T) as P.
  destruct (lookup_scalar _ _ _ _ _ ["economics"; "damages"; "quantile"] A ltac:(vm_compute; reflexivity)) as (v & L1 & L2).
  exists v. split; [exact L1|]. destruct A as (_ & C & _).
  assert (V : exists l, entry n "values" = Some (VList l) /\ has_type n "enum" /\ entry n "can_be_false" = None /\
     forallb (fun w => existsb (fun ql => match w with VFloat (FFin q) => Qeq_bool q (fst ql) | _ => false end) quantile_labels) l = true).
  { vm_compute in T. injection T as <-. eexists. split; [reflexivity|]. split; [reflexivity|]. split; [reflexivity|]. vm_compute. reflexivity. }
  destruct V as (l & V & E & F & K).
  destruct (C04_enum_listed_pf o config_default user raw tree _ n _ default_distinct C P E V) as (w & W1 & [[_ (x & X & _)]|(y & Y & W2 & _)]).
  { rewrite F in X. discriminate X. }
  rewrite W1 in L2. injection L2 as <-. rewrite forallb_forall in K. specialize (K _ Y). apply existsb_exists in K as ([q lb] & I & K). cbn [fst] in K.
  destruct y as [| | |[q'| | |]| | |]; try discriminate. apply Qeq_bool_eq in K.
  assert (NI : (match q with Qmake z d => Z.eqb (Z.modulo z (Zpos d)) 0 end) = false).
  { revert I. clear. intros I. repeat (destruct I as [I|I]; [injection I as <- _; reflexivity|]). destruct I. }
  assert (exists q2, w = VFloat (FFin q2) /\ (q2 == q)%Q) as (q2 & -> & Q2).
  { assert (NZ : forall z, ~ (inject_Z z == q)%Q).
    { intros z Z. destruct q as [qn qd]. unfold Qeq in Z. cbn in Z. rewrite Z.mul_1_r in Z. rewrite <- Z, Z.mod_mul in NI by discriminate. discriminate NI. }
    destruct w as [|b|z|[q2| | |]| | |]; cbn in W2; try discriminate.
    - destruct b; apply Qeq_bool_eq in W2; [destruct (NZ 1%Z)|destruct (NZ 0%Z)]; rewrite <- K, <- W2; reflexivity.
    - apply Qeq_bool_eq in W2. destruct (NZ z). rewrite <- K, <- W2. reflexivity.
    - apply Qeq_bool_eq in W2. exists q2. split; [reflexivity|]. rewrite W2, K. reflexivity. }
  unfold labels. apply in_map_iff. exists (q, lb). split; [|exact I]. cbn [snd]. symmetry. apply (PQ q lb q2 I Q2).
Qed.
Definition kappa_check (texts : list string) : bool := check_module (["economics"; "MAC"; "regional calibration factor"], texts).
Definition kappas : list string := tl (t_columns mac).
Lemma kappa_value o user raw params tree : accepted o user raw params tree ->
  exists k, lookup params ["economics"; "MAC"; "regional calibration factor"] = Some (VStr k) /\ In k kappas.
Proof.
  intros A. destruct (check_module_value _ _ _ _ _ (["economics"; "MAC"; "regional calibration factor"], kappas) A) as (k & K1 & K2); [vm_compute; reflexivity|].
  eauto.
Qed.
Lemma ssp_value o user raw params tree : accepted o user raw params tree ->
  exists k, lookup params ["SSP"] = Some (VStr k) /\ lookup raw ["SSP"] = Some (VStr k) /\ In k ["SSP1"; "SSP2"; "SSP3"; "SSP4"; "SSP5"].
Proof.
  intros A. destruct (check_module_value _ _ _ _ _ (["SSP"], ["SSP1"; "SSP2"; "SSP3"; "SSP4"; "SSP5"]) A) as (k & K1 & K2); [vm_compute; reflexivity|].
  destruct (lookup_scalar _ _ _ _ _ ["SSP"] A ltac:(vm_compute; reflexivity)) as (v & L1 & L2).
  cbn [fst snd] in *. rewrite L1 in K2. injection K2 as ->. eauto.
Qed.

Definition coacch_columns : list string :=
  map (fun x => "NoSLR_" ++ x)%string ["form"; "b1"; "b2"; "b3"] ++ map (fun l => "NoSLR_a (q=" ++ l ++ ")")%string labels ++
  flat_map (fun a => map (fun x => "SLR-" ++ a ++ "_" ++ x)%string ["form"; "b1"; "b2"; "b3"] ++ map (fun l => "SLR-" ++ a ++ "_a (q=" ++ l ++ ")")%string labels ++
    flat_map (fun b => map (fun l => "combined_" ++ b ++ "_" ++ a ++ "-q" ++ l)%string labels) ["b1"; "b2"]) ["Ad"; "NoAd"].
Definition mortality_columns : list string := flat_map (fun g => map (fun x => g ++ "_" ++ x)%string ["a"; "b"; "c"]) ["oldest"; "older"; "young"].
Definition direct_columns : list (string * (table * list string)) :=
  [("economics", (economics, ["init_capital_factor"])); ("MAC", (mac, kappas)); ("mortality", (mortality, mortality_columns))].
Definition direct_check (data : table) (col region : string) : bool :=
  negb (String.eqb col "region") &&
  match index_of col (t_columns data), filter (matches data (VStr region)) (t_rows data) with
  | Ok n, [row] => match nth_error row n with Some v => cell_ok v | None => false end
  | _, _ => false end.
Lemma direct_checked : forallb (fun ct => forallb (fun col => forallb (direct_check (fst (snd ct)) col) image_regions) (snd (snd ct))) direct_columns = true.
Proof. vm_compute. reflexivity. Qed.
Lemma coacch_checked : forallb (fun col => negb (String.eqb col "region") && (if index_of col (t_columns coacch) then true else false)) coacch_columns = true.
Proof. vm_compute. reflexivity. Qed.
Lemma coacch_regions : forallb (fun r => existsb (fun ab => py_eqb (snd ab) (VStr r)) image_pairs) image_regions = true.
Proof. vm_compute. reflexivity. Qed.
Lemma coacch_cells : forallb (forallb cell_ok) (t_rows coacch) = true.
Proof. vm_compute. reflexivity. Qed.

Definition offered (cat col : string) : Prop :=
  cat = "economics" /\ col = "init_capital_factor" \/ cat = "MAC" /\ In col kappas \/ cat = "COACCH" /\ In col coacch_columns \/
  cat = "mortality" /\ In col mortality_columns.
Lemma offered_value mo params cat col r : (forall l, Permutation l (mo l)) -> offered cat col -> In r image_regions ->
  exists v, getregional mo {| st_params := params; st_categories := bundled_categories |} cat col r = Ok v.
Proof.
  intros PM O R. destruct (override params r cat col) as [v|] eqn:OV; [exists v; apply C15_override_wins_pf; exact OV|].
  rewrite C15_otherwise_file_value_pf by exact OV. cbn [st_categories].
  assert (DC : forall cat data cols, In (cat, (data, cols)) direct_columns -> In col cols -> exists v, container_get mo (Direct data) col r = Ok v).
  { intros c d cs I1 I2. pose proof direct_checked as K. rewrite forallb_forall in K. specialize (K _ I1). cbn [fst snd] in K.
    rewrite forallb_forall in K. specialize (K _ I2). rewrite forallb_forall in K. specialize (K _ R). unfold direct_check in K.
    apply Bool.andb_true_iff in K as [K1 K2]. apply direct_get; [destruct (String.eqb col "region"); [discriminate K1|reflexivity]|exact K2]. }
  assert (CC : In col coacch_columns -> exists v, container_get mo (Mapped coacch image_pairs) col r = Ok v).
  { intros I. pose proof coacch_checked as K. rewrite forallb_forall in K. specialize (K _ I). apply Bool.andb_true_iff in K as [K1 K2].
    apply mapped_get; [exact PM|destruct (String.eqb col "region"); [discriminate K1|reflexivity]|exact K2| |apply coacch_cells].
    pose proof coacch_regions as J. rewrite forallb_forall in J. apply (J _ R). }
  unfold file_value. destruct O as [[-> O]|[[-> O]|[[-> O]|[-> O]]]].
  - subst col. apply (DC "economics" _ ["init_capital_factor"]); cbn; auto.
  - apply (DC "MAC" _ kappas); cbn; auto.
  - apply CC, O.
  - apply (DC "mortality" _ mortality_columns); cbn; auto.
Qed.

Lemma adapt_in v : In (adapt_label v) ["Ad"; "NoAd"].
Proof. unfold adapt_label. destruct (py_truth v); cbn; auto. Qed.
Lemma in_coacch_noslr x : In x ["form"; "b1"; "b2"; "b3"] -> In ("NoSLR_" ++ x)%string coacch_columns.
Proof. intros I. unfold coacch_columns. apply in_app_iff. left. apply in_map_iff. eauto. Qed.
Lemma in_coacch_noslr_a l : In l labels -> In ("NoSLR_a (q=" ++ l ++ ")")%string coacch_columns.
Proof. intros I. unfold coacch_columns. apply in_app_iff. right. apply in_app_iff. left. apply in_map_iff. eauto. Qed.
Lemma in_coacch_slr x v : In x ["form"; "b1"; "b2"; "b3"] -> In ("SLR-" ++ adapt_label v ++ "_" ++ x)%string coacch_columns.
Proof.
  intros I. unfold coacch_columns. apply in_app_iff. right. apply in_app_iff. right. apply in_flat_map. exists (adapt_label v). split; [apply adapt_in|].
  apply in_app_iff. left. apply in_map_iff. eauto.
Qed.
Lemma in_coacch_slr_a l v : In l labels -> In ("SLR-" ++ adapt_label v ++ "_a (q=" ++ l ++ ")")%string coacch_columns.
Proof.
  intros I. unfold coacch_columns. apply in_app_iff. right. apply in_app_iff. right. apply in_flat_map. exists (adapt_label v). split; [apply adapt_in|].
  apply in_app_iff. right. apply in_app_iff. left. apply in_map_iff. eauto.
Qed.
Lemma in_coacch_combined b l v : In b ["b1"; "b2"] -> In l labels -> In ("combined_" ++ b ++ "_" ++ adapt_label v ++ "-q" ++ l)%string coacch_columns.
Proof.
  intros B I. unfold coacch_columns. apply in_app_iff. right. apply in_app_iff. right. apply in_flat_map. exists (adapt_label v). split; [apply adapt_in|].
  apply in_app_iff. right. apply in_app_iff. right. apply in_flat_map. exists b. split; [exact B|]. apply in_map_iff. eauto.
Qed.
Lemma bundled_columns o user raw params tree mo rs : accepted o user raw params tree -> prints_quantiles o -> (forall l, Permutation l (mo l)) ->
  (forall r, In r rs -> In r image_regions) ->
  columns_available o mo params {| st_params := params; st_categories := bundled_categories |} rs /\
  combined_available o mo params {| st_params := params; st_categories := bundled_categories |} rs /\ plain_columns o params.
Proof.
  intros A PQ PM RS. destruct (quantile_value _ _ _ _ _ A PQ) as (q & Q1 & Q2). destruct (kappa_value _ _ _ _ _ A) as (k & K1 & K2).
  split; [|split].
  - intros name cat col r RD _ R. apply offered_value; [exact PM| |auto]. unfold offered.
    destruct RD as [|k' K|x X|q' Q|x a X AA|a q' AA Q|age x G X]; [auto|..]; right.
    + rewrite K1 in K. injection K as <-. left. auto.
    + right; left. split; [reflexivity|apply in_coacch_noslr, X].
    + right; left. rewrite Q1 in Q. injection Q as <-. split; [reflexivity|apply in_coacch_noslr_a, Q2].
    + right; left. split; [reflexivity|apply in_coacch_slr, X].
    + right; left. rewrite Q1 in Q. injection Q as <-. split; [reflexivity|apply in_coacch_slr_a, Q2].
    + right; right. split; [reflexivity|]. unfold mortality_columns. apply in_flat_map. exists age. split; [exact G|]. apply in_map_iff. eauto.
  - intros _ b a q' r B AA Q R. rewrite Q1 in Q. injection Q as <-. apply offered_value; [exact PM| |auto]. right; right; left.
    split; [reflexivity|]. apply in_coacch_combined; auto.
  - intros p v [<-|[<-|[]]] L.
    + rewrite K1 in L. injection L as <-. cbn [show py_str].
      assert (J : forallb (fun s => forallb (fun c => negb (Ascii.eqb c ":")) (list_ascii_of_string s)) kappas = true) by (vm_compute; reflexivity).
      rewrite forallb_forall in J. specialize (J _ K2). clear - J. unfold no_colon, show. cbn. induction k as [|c k IH]; cbn in *; [exact Logic.I|].
      apply Bool.andb_true_iff in J as [J1 J2]. split; [|auto]. intros ->. discriminate J1.
    + rewrite Q1 in L. injection L as <-. 
      assert (J : forallb (fun s => forallb (fun c => negb (Ascii.eqb c ":")) (list_ascii_of_string s)) labels = true) by (vm_compute; reflexivity).
      rewrite forallb_forall in J. specialize (J _ Q2). clear - J. unfold no_colon. revert J. generalize (show o q). intros t J. induction t as [|c t IH]; cbn in *; [exact Logic.I|].
      apply Bool.andb_true_iff in J as [J1 J2]. split; [|auto]. intros ->. discriminate J1.
Qed.

(** *** Numbers of the configuration *)
Definition number_of (v : pyval) : option Q :=
  match v with VInt z => Some (inject_Z z) | VFloat (FFin q) => Some q | _ => None end.
Definition bounds_of (p : list string) : option (Q * Q) :=
  match template_node p with
  | Some n =>
      match entry n "type", entry n "can_be_false", entry n "min", entry n "max" with
      | Some (VStr t), None, Some lo, Some hi =>
          match number_of lo, number_of hi with
          | Some a, Some b => if (String.eqb t "float" || String.eqb t "int")%bool then Some (a, b) else None
          | _, _ => None
          end
      | _, _, _, _ => None
      end
  | None => None
  end.
Lemma bounded_number o user raw params tree p lo hi : accepted o user raw params tree -> bounds_of p = Some (lo, hi) ->
  exists v, lookup params p = Some v /\ (v = VFloat FNaN \/ exists q, number_of v = Some q /\ (lo <= q)%Q /\ (q <= hi)%Q).
Proof.
  intros A B. unfold bounds_of in B. destruct (template_node p) as [n|] eqn:T; [|discriminate]. pose proof (template_node_ok _ _ T) as P.
  destruct (entry n "type") as [[| | | |t| |]|] eqn:ET; try discriminate. destruct (entry n "can_be_false") eqn:EF; [discriminate|].
  destruct (entry n "min") as [l|] eqn:EL; [|discriminate]. destruct (entry n "max") as [h|] eqn:EH; [|discriminate].
  destruct (number_of l) as [a|] eqn:NL; [|discriminate]. destruct (number_of h) as [b|] eqn:NH; [|discriminate].
  destruct (String.eqb t "float" || String.eqb t "int")%bool eqn:TY; [|discriminate]. injection B as -> ->.
  assert (NUM : forall v q, number_of v = Some q -> numeric v (FFin q) /\ FFin q <> FNaN).
  { intros v q E. destruct v as [| |z|[]| | |]; cbn in E; try discriminate; injection E as <-; (split; [|discriminate]); [left; eauto|right; reflexivity]. }
  assert (S : scalar_node n = true /\ quantity_node n = false /\ (has_type n "float" \/ has_type n "int")).
  { unfold scalar_node, quantity_node, has_type. rewrite ET. apply Bool.orb_true_iff in TY as [E|E]; apply String.eqb_eq in E; subst t; cbn; auto. }
  destruct S as (S1 & S2 & S3).
  destruct (scalar_value_spec _ _ _ _ _ _ _ A P S1) as (v & L1 & L2 & _); [rewrite S2; discriminate|]. exists v. split; [exact L2|].
  destruct A as (_ & C & _).
  destruct (C03_bounds_pf o config_default user raw tree p n (FFin lo) (FFin hi) default_distinct C P S3) as (w & W & H).
  { unfold lower_bound. rewrite EL. auto. } { unfold upper_bound. rewrite EH. auto. }
  rewrite W in L1. injection L1 as ->. destruct H as [[_ (x & X & _)]|[->|(x & X & X1 & X2)]]; [rewrite EF in X; discriminate X|auto|right].
  destruct x as [q| | |]; cbn in X1, X2; try contradiction. exists q. split; [|auto].
  destruct X as [(z & -> & E)| ->]; [injection E as ->|]; reflexivity.
Qed.
Lemma number_year v q : number_of v = Some q -> year_number v = Ok (Q2R q).
Proof.
  intros E. destruct v as [| |z|[]| | |]; cbn in E |- *; try discriminate; injection E as <-; [|reflexivity].
  f_equal. unfold Q2R, inject_Z. cbn. field.
Qed.

(** *** Data files *)
Definition select_check (k : key4) : option (list Q * list Q * string) :=
  let t := lower_columns image_ssp in
  let '(model, scenario, region, variablename) := k in
  match index_of "model" (t_columns t), index_of "scenario" (t_columns t), index_of "region" (t_columns t), file_region region, index_of "variable" (t_columns t) with
  | Ok c1, Ok c2, Ok c3, Ok r, Ok c4 =>
    match filter (fun row => cell_is row c1 model && cell_is row c2 scenario && cell_is row c3 r && cell_is row c4 variablename)%bool (t_rows t) with
    | [row] =>
        match index_of "2010" (t_columns t), index_of "unit" (t_columns t) with
        | Ok n, Ok u =>
          match map_result (fun l => match parse_float_str l with Some (FFin q) => Ok q | _ => Err ValueError end) (skipn n (t_columns t)),
                map_result (fun v => match number_of v with Some q => Ok q | None => Err TypeError end) (skipn n row), nth_error row u with
          | Ok ys, Ok vs, Some (VStr x) => Some (ys, vs, x)
          | _, _, _ => None
          end
        | _, _ => None
        end
    | _ => None
    end
  | _, _, _, _, _ => None
  end.
Lemma map_result_map {A B C} (f : A -> result B) (g : A -> result C) (h : B -> C) : (forall x y, f x = Ok y -> g x = Ok (h y)) ->
  forall l l', map_result f l = Ok l' -> map_result g l = Ok (map h l').
Proof.
  intros H l. induction l as [|x l IH]; intros l' E; cbn in E |- *; [injection E as <-; reflexivity|].
  destruct (f x) as [y|] eqn:F; [|discriminate]. cbn [bind] in E. destruct (map_result f l) as [ys|] eqn:M; [|discriminate]. cbn [bind] in E. injection E as <-.
  rewrite (H _ _ F). cbn [bind]. rewrite (IH _ eq_refl). reflexivity.
Qed.
Lemma select_check_ok k ys vs u : select_check k = Some (ys, vs, u) ->
  exists x, select (lower_columns image_ssp) k = Ok x /\ years x = map Q2R ys /\ map_result number (cells x) = Ok (map Q2R vs) /\ unit_label x = VStr u.
Proof.
  destruct k as [[[m s] r] v]. unfold select_check, select.
  destruct (index_of "model" _) as [c1|]; [|discriminate]. destruct (index_of "scenario" _) as [c2|]; [|discriminate].
  destruct (index_of "region" _) as [c3|]; [|discriminate]. destruct (file_region r) as [r'|]; [|discriminate]. destruct (index_of "variable" _) as [c4|]; [|discriminate].
  cbn [bind]. destruct (filter _ _) as [|row [|]]; try discriminate.
  destruct (index_of "2010" _) as [n|]; [|discriminate]. destruct (index_of "unit" _) as [un|]; [|discriminate]. cbn [bind].
  destruct (map_result _ (skipn n (t_columns _))) as [y|] eqn:Y; [|discriminate]. destruct (map_result _ (skipn n row)) as [w|] eqn:W; [|discriminate].
  destruct (nth_error row un) as [[| | | |x| |]|] eqn:U; try discriminate. intros E. injection E as -> -> ->.
  rewrite (map_result_map _ year_of Q2R) with (l' := ys) (2 := Y).
  - cbn [bind]. eexists. split; [reflexivity|]. cbn. split; [reflexivity|]. split; [|reflexivity].
    apply (map_result_map _ number Q2R) with (2 := W). intros c q H. destruct (number_of c) as [q'|] eqn:N; [|discriminate]. injection H as <-.
    destruct c as [| |z|[]| | |]; cbn in N |- *; try discriminate; injection N as <-; [|reflexivity]. f_equal. unfold Q2R, inject_Z. cbn. field.
  - intros c q H. unfold year_of. destruct (parse_float_str c) as [[q'| | |]|]; try discriminate. injection H as <-. reflexivity.
Qed.
Definition decades : list Q := map inject_Z [2010; 2020; 2030; 2040; 2050; 2060; 2070; 2080; 2090; 2100]%Z.
Definition data_variables : list (string * string * string) :=  (* variable, configured unit, unit of the file *)
  [("GDP|PPP", "currency_unit", "billion US$2005/yr"); ("Emissions|CO2", "emissionsrate_unit", "Mt CO2/yr"); ("Population", "population_unit", "million")].
Definition ssps : list string := ["SSP1"; "SSP2"; "SSP3"; "SSP4"; "SSP5"].
Fixpoint all2b {A B} (f : A -> B -> bool) (l : list A) (l' : list B) : bool :=
  match l, l' with [], [] => true | x :: r, y :: r' => (f x y && all2b f r r')%bool | _, _ => false end.
Lemma data_checked : forallb (fun ssp => forallb (fun region => forallb (fun vu =>
    match select_check ("IMAGE", scenario_of ssp, region, fst (fst vu)) with
    | Some (ys, vs, u) => (all2b Qeq_bool ys decades && Nat.eqb (List.length vs) 10 && String.eqb u (snd vu))%bool
    | None => false end) data_variables) image_regions) ssps = true.
Proof. vm_compute. reflexivity. Qed.

Open Scope R_scope.
Lemma fold_min_le x r y : In y (x :: r) -> fold_right Rmin x r <= y.
Proof.
  induction r as [|z r IH]; intros I; cbn [fold_right]; [destruct I as [->|[]]; lra|].
  destruct I as [->|[->|I]]; [|apply Rmin_l|]; (eapply Rle_trans; [apply Rmin_r|apply IH; cbn; auto]).
Qed.
Lemma fold_max_ge x r y : In y (x :: r) -> y <= fold_right Rmax x r.
Proof.
  induction r as [|z r IH]; intros I; cbn [fold_right]; [destruct I as [->|[]]; lra|].
  destruct I as [->|[->|I]]; [|apply Rmax_l|]; (eapply Rle_trans; [apply IH; cbn; eauto|apply Rmax_r]).
Qed.
Lemma in_range_ok xs a b y : In a xs -> In b xs -> a <= y <= b -> in_range xs y = true.
Proof.
  intros A B H. unfold in_range. destruct xs as [|x r]; [destruct A|]. pose proof (fold_min_le _ _ _ A). pose proof (fold_max_ge _ _ _ B).
  destruct (Rle_dec _ y); [|lra]. destruct (Rle_dec y _); [reflexivity|lra].
Qed.
Lemma all2b_decades ys : all2b Qeq_bool ys decades = true -> map Q2R ys = [2010; 2020; 2030; 2040; 2050; 2060; 2070; 2080; 2090; 2100].
Proof.
  intros H. assert (E : map Q2R ys = map Q2R decades).
  { revert H. generalize decades. induction ys as [|y ys IH]; intros [|d ds] H; cbn in H; try discriminate; [reflexivity|].
    apply Bool.andb_true_iff in H as [H1 H2]. apply Qeq_bool_eq, Qeq_eqR in H1. cbn. f_equal; auto. }
  rewrite E. unfold decades, inject_Z, Q2R. cbn [map Qnum Qden]. repeat (f_equal; try lra).
Qed.
(** pint knows the units of the bundled files *)
Definition units_known (uf : string -> string -> result R) : Prop :=
  forall v to from, In (v, to, from) data_variables -> exists k, uf from to = Ok k.
Lemma extrapolate_from_length c t v l : List.length (extrapolate_from c t v l) = List.length l.
Proof. revert t v. induction l as [|x l IH]; intros; cbn; auto. Qed.
Lemma extrapolate_length vs ys ex out : extrapolate vs ys ex = Ok out -> List.length out = (List.length vs + List.length ex)%nat.
Proof.
  unfold extrapolate. destruct (rev vs) as [|v1 [|v0 ?]]; try discriminate. destruct (rev ys) as [|y1 [|y0 ?]]; try discriminate.
  intros E. apply Ok_inj in E. subst out. rewrite app_length, extrapolate_from_length. reflexivity.
Qed.
Lemma data_year_range start stop dt y : 0 < dt -> In y (data_years start stop dt) -> start <= y < stop + 50.
Proof.
  intros D I. unfold data_years, arange in I. apply in_map_iff in I as (i & <- & I). apply in_seq in I. unfold year_at.
  pose proof (pos_INR i) as P. assert (0 <= INR i * dt) by (apply Rmult_le_pos; lra). split; [lra|].
  set (z := ceil ((stop + 50 - start) / dt)) in *. pose proof (ceil_spec ((stop + 50 - start) / dt)) as [C1 C2]. fold z in C1, C2.
  assert (Z : (0 < z)%Z) by lia. assert (IZ : INR i <= IZR z - 1).
  { rewrite INR_IZR_INZ. replace (IZR z - 1) with (IZR (z - 1)) by (rewrite minus_IZR; reflexivity). apply IZR_le. lia. }
  assert (INR i < (stop + 50 - start) / dt) by lra. apply (Rmult_lt_compat_r dt) in H0; [|lra].
  replace ((stop + 50 - start) / dt * dt) with (stop + 50 - start) in H0 by (field; lra). lra.
Qed.
Lemma bundled_convert uf sp ssp region v to from start stop dt scenario model file : spline_defined sp -> units_known uf ->
  In ssp ssps -> In region image_regions -> In (v, to, from) data_variables -> 2010 <= start -> stop <= 2200 -> 0 < dt ->
  scenario = scenario_of ssp -> model = "IMAGE"%string ->
  exists x values, in_file image_ssp {| s_variable := v; s_unit := to; s_scenario := scenario; s_model := model; s_file := file |} region = Ok x /\
    convert uf sp {| s_variable := v; s_unit := to; s_scenario := scenario; s_model := model; s_file := file |} (data_years start stop dt) x = Ok values /\
    List.length values = List.length (data_years start stop dt).
Proof.
  intros SP UK I1 I2 I3 H1 H2 H3 -> ->. unfold in_file. cbn [s_model s_scenario s_variable].
  pose proof data_checked as K. rewrite forallb_forall in K. specialize (K _ I1). rewrite forallb_forall in K. specialize (K _ I2).
  rewrite forallb_forall in K. specialize (K _ I3). cbn [fst snd] in K.
  destruct (select_check _) as [[[ys vs] u]|] eqn:S; [|discriminate]. rewrite !Bool.andb_true_iff in K. destruct K as [[K1 K2] K3].
  apply Nat.eqb_eq in K2. apply String.eqb_eq in K3. subst u. apply all2b_decades in K1.
  destruct (select_check_ok _ _ _ _ S) as (x & X1 & X2 & X3 & X4). exists x. rewrite X1.
  destruct (UK _ _ _ I3) as [k UF]. unfold convert. rewrite X3. cbn [bind]. rewrite X4. cbn [s_unit]. rewrite UF. cbn [bind].
  rewrite X2, K1. set (dec := [2010; 2020; 2030; 2040; 2050; 2060; 2070; 2080; 2090; 2100]).
  assert (LV : List.length (map (Rmult k) (map Q2R vs)) = 10%nat) by (rewrite !map_length; exact K2).
  destruct (C13_total_pf (map (Rmult k) (map Q2R vs)) dec extra_years) as (ext & EX); [lia|rewrite LV; reflexivity|].
  pose proof (extrapolate_length _ _ _ _ EX) as LE. rewrite LV in LE.
  rewrite EX. cbn [bind]. unfold interpolate.
  destruct (SP (dec ++ extra_years)%list ext) as [f F].
  - intros i j Hij. unfold dec, extra_years in *. cbn [app List.length] in Hij. cbn [app].
    do 25 (destruct i as [|i]; [do 25 (destruct j as [|j]; [cbn [nth]; try lia; lra|]); lia|]). lia.
  - rewrite LE, app_length. reflexivity.
  - rewrite app_length. cbn. lia.
  - rewrite F. cbn [bind]. replace (forallb _ _) with true.
    + eexists. split; [reflexivity|]. split; [reflexivity|]. apply map_length.
    + symmetry. apply forallb_forall. intros y Y. apply (in_range_ok _ 2010 2250); [cbn; auto|cbn; tauto|].
      destruct (data_year_range _ _ _ _ H3 Y). lra.
Qed.

(** The store arguments of a configuration with default inputs *)
Definition bundled_sources (scenario : string) : list (string * source) :=
  let src v u := {| s_variable := v; s_unit := u; s_scenario := scenario; s_model := "IMAGE"; s_file := "inputdata/data/data_IMAGE_SSP.csv" |} in
  [("GDP", src "GDP|PPP" "currency_unit"); ("emissions", src "Emissions|CO2" "emissionsrate_unit"); ("population", src "Population" "population_unit")]%string.
Definition number_at (params : pyval) (p : list string) (q : Q) : Prop := exists v, lookup params p = Some v /\ number_of v = Some q.

Lemma bundled_args params ssp rs s e d : lookup params ["input"; "variables"] = Some (variables_entry (scenario_of ssp)) ->
  number_at params ["time"; "start"] s -> number_at params ["time"; "end"] e -> number_at params ["time"; "dt"] d ->
  store_args_of params rs = Ok {| a_start := Q2R s; a_end := Q2R e; a_dt := Q2R d; a_regions := rs; a_variables := bundled_sources (scenario_of ssp) |}.
Proof.
  intros V (vs & L1 & N1) (ve & L2 & N2) (vd & L3 & N3). unfold store_args_of.
  apply config_lookup in V, L1, L2, L3. rewrite L1. cbn [bind]. rewrite (number_year _ _ N1). cbn [bind]. rewrite L2. cbn [bind]. rewrite (number_year _ _ N2). cbn [bind].
  rewrite L3. cbn [bind]. rewrite (number_year _ _ N3). cbn [bind]. rewrite V. cbn [bind]. reflexivity.
Qed.

Lemma pure_values_ok uf sp rd ys rs s : (forall r, In r rs -> exists v, pure_data uf sp rd ys r s = Ok v) -> exists l, pure_values uf sp rd ys rs s = Ok l.
Proof.
  induction rs as [|r rs IH]; intros H; [exists []; reflexivity|]. cbn. destruct (H r (or_introl eq_refl)) as [v ->]. cbn [bind].
  destruct IH as [l ->]; [intros; apply H; right; auto|]. cbn [bind]. eauto.
Qed.
Lemma assoc_ex {A} (l : list (string * A)) k : In k (map fst l) -> exists v, assoc k l = Ok v /\ In (k, v) l.
Proof.
  unfold assoc. induction l as [|[k' v'] l IH]; intros I; [destruct I|]. cbn. destruct (String.eqb k' k) eqn:E.
  - apply String.eqb_eq in E. subst k'. eauto.
  - destruct I as [I|I]; [cbn in I; subst; rewrite String.eqb_refl in E; discriminate|]. destruct (IH I) as (v & V1 & V2). eauto.
Qed.

Lemma bundled_data uf sp h ssp rs start stop dt : spline_defined sp -> units_known uf -> In ssp ssps -> (forall r, In r rs -> In r image_regions) ->
  2010 <= start -> stop <= 2200 -> 0 < dt <= 20 -> (forall disk a, In (disk, a) h -> disk = bundled) ->
  let a := {| a_start := start; a_end := stop; a_dt := dt; a_regions := rs; a_variables := bundled_sources (scenario_of ssp) |} in
  exists values, snd (data_store bundled uf sp a (after uf sp h empty_caches)) = Ok values /\ series_available a values rs.
Proof.
  intros SP UK I1 RS H1 H2 H3 HH a. rewrite (C14_cache_transparent_pf uf sp bundled h a HH). unfold data_store.
  pose proof (load_inv uf sp bundled (data_years (a_start a) (a_end a) (a_dt a)) (a_regions a) (a_variables a) _ _ Inv_empty) as L.
  destruct (load_variables _ _ _ _ _ _ _) as [c x]. destruct L as [_ ->]. cbn [snd]. cbn [a_start a_end a_dt a_regions a_variables a].
  set (ys := data_years start stop dt) in *.
  assert (RD : read (fun _ => None) bundled "inputdata/data/data_IMAGE_SSP.csv" = Ok image_ssp) by reflexivity.
  assert (PV : forall v to from, In (v, to, from) data_variables ->
     let s := {| s_variable := v; s_unit := to; s_scenario := scenario_of ssp; s_model := "IMAGE"; s_file := "inputdata/data/data_IMAGE_SSP.csv" |} in
     exists l, pure_values uf sp (read (fun _ => None) bundled) ys rs s = Ok l /\ map fst l = rs /\ forall r x, In (r, x) l -> List.length x = List.length ys).
  { intros v to from I s. destruct (pure_values_ok uf sp (read (fun _ => None) bundled) ys rs s) as [l L].
    - intros r R. unfold pure_data. cbn [s_file s]. rewrite RD. cbn [bind].
      destruct (bundled_convert uf sp ssp r v to from start stop dt (scenario_of ssp) "IMAGE" "inputdata/data/data_IMAGE_SSP.csv") as (x & w & X1 & X2 & _); auto; [lra|].
      fold s in X1, X2. rewrite X1. cbn [bind]. fold ys in X2. eauto.
    - exists l. split; [exact L|]. destruct (pure_values_spec _ _ _ _ _ _ _ L) as [M K]. split; [exact M|]. intros r x I'.
      assert (R : In r rs) by (rewrite <- M; apply in_map_iff; exists (r, x); auto).
      specialize (K _ _ I'). unfold pure_data in K. cbn [s_file s] in K. rewrite RD in K. cbn [bind] in K.
      destruct (bundled_convert uf sp ssp r v to from start stop dt (scenario_of ssp) "IMAGE" "inputdata/data/data_IMAGE_SSP.csv") as (x0 & w & X1 & X2 & X3); auto; [lra|].
      fold s in X1, X2. rewrite X1 in K. cbn [bind] in K. fold ys in X2, X3. rewrite X2 in K. apply Ok_inj in K. subst. exact X3. }
  destruct (PV "GDP|PPP" "currency_unit" "billion US$2005/yr")%string as (v1 & V1 & M1 & K1); [cbn; auto|].
  destruct (PV "Emissions|CO2" "emissionsrate_unit" "Mt CO2/yr")%string as (v2 & V2 & M2 & K2); [cbn; auto|].
  destruct (PV "Population" "population_unit" "million")%string as (v3 & V3 & M3 & K3); [cbn; auto|].
  unfold bundled_sources. cbn [pure_load s_file]. rewrite RD. cbn [bind]. rewrite V1. cbn [bind]. rewrite V2. cbn [bind]. rewrite V3. cbn [bind].
  eexists. split; [reflexivity|]. intros var t r VI TI RI.
  assert (NY : ys <> []).
  { unfold ys, data_years, arange, model_steps, num_years in *. cbn [a_start a_end a_dt a] in TI. apply in_seq in TI. intros E.
    apply map_eq_nil in E. apply (f_equal (@List.length nat)) in E. rewrite seq_length in E.
    pose proof (ceil_spec ((stop + 50 - start) / dt)) as [C1 _]. pose proof (ceil_spec ((stop - start) / dt)) as [_ C2].
    assert (Z0 : (ceil ((stop + 50 - start) / dt) <= 0)%Z) by (cbn [List.length] in E; lia). apply IZR_le in Z0.
    assert (Z1 : (0 <= ceil ((stop - start) / dt))%Z) by lia. apply IZR_le in Z1.
    assert (X : (stop - start) / dt > -1) by lra. apply (Rmult_lt_compat_r dt) in X; [|lra].
    replace ((stop - start) / dt * dt) with (stop - start) in X by (field; lra).
    assert (Y : (stop + 50 - start) / dt <= 0) by lra. apply (Rmult_le_compat_r dt) in Y; [|lra].
    replace ((stop + 50 - start) / dt * dt) with (stop + 50 - start) in Y by (field; lra). lra. }
  unfold interp_data. cbn [a_start a_end a_dt a]. fold ys.
  assert (G : forall l, map fst l = rs -> (forall r x, In (r, x) l -> List.length x = List.length ys) ->
     exists z, (do w <- assoc r l; np_interp (year_at start dt t) ys w) = Ok z).
  { intros l M K. destruct (assoc_ex l r) as (w & W1 & W2); [rewrite M; exact RI|]. rewrite W1. cbn [bind]. specialize (K _ _ W2).
    unfold np_interp. destruct ys as [|y0 ys']; [congruence|]. destruct w as [|w0 w']; [discriminate K|]. cbn [combine]. destruct (Rlt_dec _ _); eauto. }
  destruct VI as [<-|[<-|[<-|[]]]]; cbn [assoc find fst]; unfold assoc at 1; cbn [find fst String.eqb Ascii.eqb Bool.eqb bind]; apply G; auto.
Qed.

Lemma items_strings d rs : (forall k x, In (k, x) d -> exists r, k = KStr r /\ In r rs) ->
  exists l, items (VDict d) = Ok l /\ forall r, In r (map fst l) -> In r rs.
Proof.
  unfold items. induction d as [|[k x] d IH]; intros H; [exists []; split; [reflexivity|intros r []]|]. cbn [map_result fst snd].
  destruct (H k x (or_introl eq_refl)) as (r & -> & R). cbn [bind]. destruct IH as (l & L & K); [intros; eapply H; right; eauto|]. cbn in L. rewrite L. cbn [bind].
  eexists. split; [reflexivity|]. intros r' [<-|I]; [exact R|auto].
Qed.

Lemma C57_bundled_constructs_pf : forall o mo uf sp h user raw params tree d start stop,
  accepted o user raw params tree -> default_inputs user -> plain_quantities raw ->
  lookup params ["regions"] = Some (VDict d) -> (forall k x, In (k, x) d -> exists r, k = KStr r /\ In r image_regions) ->
  number_at params ["time"; "start"] start -> number_at params ["time"; "end"] stop -> (2010 <= start)%Q -> (stop <= 2200)%Q ->
  lookup params ["time"; "dt"] <> Some (VFloat FNaN) ->
  prints_quantiles o -> (forall l, Permutation l (mo l)) -> units_known uf -> spline_defined sp ->
  (forall disk a, In (disk, a) h -> disk = bundled) ->
  exists inst, construct o bundled mo uf sp (after uf sp h empty_caches) user = Ok inst /\ i_params inst = params /\ i_tree inst = tree.
Proof.
  intros o mo uf sp h user raw params tree d start stop A D PQ RL RK NS NE B1 B2 NN PR PM UK SP HH.
  destruct (items_strings d image_regions RK) as (rs & RI & RS).
  destruct (bounded_number _ _ _ _ _ ["time"; "dt"] _ _ A ltac:(vm_compute; reflexivity)) as (dv & DL & [->|(dt & DN & DB1 & DB2)]); [congruence|].
  destruct (ssp_value _ _ _ _ _ A) as (ssp & S1 & S2 & S3).
  assert (NB : no_brace ssp) by (clear - S3; repeat (destruct S3 as [<-|S3]; [apply has_brace_false; reflexivity|]); destruct S3).
  pose proof (final_variables _ _ _ _ _ _ A D S2 NB) as FV.
  assert (ND : number_at params ["time"; "dt"] dt) by (exists dv; auto).
  pose proof (bundled_args params ssp (map fst rs) _ _ _ FV NS NE ND) as SA.
  destruct (bundled_data uf sp h ssp (map fst rs) (Q2R start) (Q2R stop) (Q2R dt)) as (values & V1 & V2); auto.
  - replace 2010%R with (Q2R 2010) by (unfold Q2R; cbn; lra). apply Qle_Rle, B1.
  - replace 2200%R with (Q2R 2200) by (unfold Q2R; cbn; lra). apply Qle_Rle, B2.
  - apply Qle_Rle in DB1, DB2. unfold Q2R in DB1 at 1, DB2 at 2. cbn in DB1, DB2. lra.
  - destruct (bundled_columns o user raw params tree mo (map fst rs) A PR PM RS) as (C1 & C2 & C3).
    destruct (construct_succeeds o bundled mo uf sp (after uf sp h empty_caches) user raw params tree rs _ _ values A PQ C3
        (ex_intro _ _ (conj RL RI)) (bundled_store _ _ _ _ _ A D) SA V1 C1 C2 V2) as (inst & I1 & I2 & I3 & _).
    eauto.
Qed.
