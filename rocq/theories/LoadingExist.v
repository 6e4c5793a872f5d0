(** C60: every constructed instance whose numbers are numbers can be loaded. *)
From Verif Require Import PyBase NestedDict Parsers Config ConfigDefault NestedDictFacts ConfigFacts ConfigFacts2 ConfigFacts3 ConfigSpec RefFacts ConfigBridge ConfigLemmas
  TimeGrid DataStore RegionalParams Instantiate InstFacts TimeGridLemmas DataStoreLemmas RegionalParamsLemmas InstantiateLemmas ConstructFacts Loading LoadingLemmas.
From Coq Require Import Reals QArith Qreals Lra Lia.
Import ListNotations.
Open Scope string_scope.
Open Scope list_scope.
Open Scope R_scope.
Set Bullet Behavior "Strict Subproofs".

(** *** Specification *)
(** Every float of the configuration is a real number (no nan, no infinity). *)
Definition real_numbers (params : pyval) : Prop := forall path f, lookup params path = Some (VFloat f) -> exists q, f = FFin q.
(** pint does not read "False" as a quantity. *)
Definition rejects_false (o : oracles) : Prop := forall unit q, o_pint o "False" unit <> Ok q.

(** *** Proofs *)
Definition required (n : pyval) : bool := match entry n "can_be_false" with None => true | Some v => negb (py_truth v) end.
Definition node_type (path : list string) : option (string * bool) :=
  match template_node path with Some n => match entry n "type" with Some (VStr t) => Some (t, required n) | _ => None end | None => None end.
Lemma required_cbf n pr : create_parser n = Ok pr -> required n = true -> p_cbf pr = false.
Proof.
  intros C R. destruct (create_parser_fields _ _ C) as (_ & B & _). destruct (p_cbf pr); [|reflexivity].
  destruct (proj1 B eq_refl) as (x & X & Y). unfold required in R. rewrite X in R. rewrite Y in R. discriminate.
Qed.

Section Exist.
  Variables (o : oracles) (disk : string -> result table) (mo : list (pyval * list pyval) -> list (pyval * list pyval))
    (uf : string -> string -> result R) (sp : list R -> list R -> result (R -> R)).
  Variables (c : caches) (user : pyval) (inst : instance) (decls : list (string * doc)) (ch : choices).
  Hypothesis DU : distinct_keys user.
  Hypothesis H : construct o disk mo uf sp c user = Ok inst.
  Hypothesis NC : forall name, ~ customised (i_params inst) name.
  Hypothesis CH : choices_of (i_params inst) = Ok ch.
  Hypothesis MP : model_params ch = Ok decls.
  Hypothesis RN : real_numbers (i_params inst).
  Hypothesis RF : rejects_false o.

  Lemma acc : exists raw, accepted o user raw (i_params inst) (i_tree inst).
  Proof. destruct (construct_inv _ _ _ _ _ _ _ _ H) as (raw & rs & ch' & decls' & start & d & H1 & H2 & _). exists raw. split; [exact DU|auto]. Qed.

  Lemma plain_type path t b v w n : node_type path = Some (t, b) -> t <> "quantity" -> template_node path = Some n -> handed_over o n w v -> v = w.
  Proof.
    intros T Q N HO. unfold node_type in T. rewrite N in T. destruct (entry n "type") as [[| | | |s| |]|] eqn:E; try discriminate. injection T as -> _.
    destruct HO as [(Q1 & _)|[(Q1 & _)|[_ E']]]; [| |exact E']; unfold has_type in Q1; rewrite E in Q1; injection Q1 as Q1; contradiction.
  Qed.
  Lemma parsed path t b : node_type path = Some (t, b) -> In t ["float"; "int"; "bool"; "quantity"] ->
    exists n pr x v, template_node path = Some n /\ entry n "type" = Some (VStr t) /\ create_parser n = Ok pr /\ (b = true -> p_cbf pr = false) /\
      parse o pr x = Ok v /\ exists w, lookup (i_params inst) path = Some w /\ (is_dict v = false -> (forall s, v <> VStr s) -> w = v) /\ (w = VBool false -> v = VBool false).
  Proof.
    intros T Q. destruct acc as (raw & A). unfold node_type in T. destruct (template_node path) as [n|] eqn:N; [|discriminate].
    destruct (entry n "type") as [[| | | |s| |]|] eqn:E; try discriminate. injection T as -> <-.
    pose proof (template_node_ok _ _ N) as P. destruct (accepted_param _ _ _ _ _ _ _ A P) as (pr & v & C & _ & L & PA).
    exists n, pr. eexists. exists v. split; [reflexivity|]. split; [exact E|]. split; [exact C|]. split; [apply required_cbf, C|]. split; [exact PA|].
    destruct (is_dict v) eqn:D.
    - destruct v as [| | | | | |dd]; try discriminate D. destruct (final_dict _ _ _ _ _ _ _ A L) as (d' & L' & _). exists (VDict d'). split; [exact L'|]. split; [discriminate|intros X; discriminate X].
    - destruct (final_value _ _ _ _ _ _ _ _ A P L D) as (w & W & _ & W1 & _). exists w. split; [exact W|]. split; [intros _; exact W1|].
      intros ->. destruct v as [|b'| | |s| |]; try (symmetry; apply W1; discriminate).
      assert (K : exists x, lookup (i_params inst) path = Some (VStr x)).
      { destruct (final_value _ _ _ _ _ _ _ _ A P L D) as (w' & W' & _). destruct A as (AD & AC & AR).
        assert (IN : In (keys_of path, VStr s) (leaves value_leaf [] raw)) by (apply leaf_in; [eapply accepted_distinct; split; [exact AD|split; eauto]|exact (param_path_nonempty _ _ _ P)|exact L|reflexivity]).
        assert (DR : distinct_keys raw) by (eapply accepted_distinct; split; [exact AD|split; eauto]).
        destruct (resolve_at_leaf raw (i_params inst) (keys_of path) (VStr s) (proj1 (distinct_wfb _) DR) AR IN) as (s1 & s2 & L1 & L2 & _ & _ & H1 & H2 & H3 & _).
        unfold resolve_leaf in H1. cbn [fst snd] in H1. destruct (resolve_keeps _ _ _ _ _ H2 H1) as [x X]. rewrite X in H3. apply lookup_get in H3. eauto. }
      destruct K as [x K]. congruence.
  Qed.
  Lemma scalar_exists name rest : In (name, Text ("::" ++ rest)%string) decls ->
    exists n w v, template_node (str_split rest ".") = Some n /\ lookup (i_params inst) (str_split rest ".") = Some w /\ handed_over o n w v /\ data_of inst name = Ok (Scalar v).
  Proof.
    intros I. destruct (C10_scalar_values_pf _ _ _ _ _ _ _ _ DU H _ _ _ _ CH MP I (NC name)) as (node & w & v & N & L & HO & A).
    destruct (scalar_decl _ _ _ _ MP I) as (_ & n & T & _). exists n, w, v. split; [exact T|].
    assert (node = n) as <- by (eapply param_at_fun; [exact N|apply template_node_ok, T]). auto.
  Qed.
  Lemma have_number name rest path t : In (name, Text ("::" ++ rest)%string) decls -> str_split rest "." = path -> node_type path = Some (t, true) -> In t ["float"; "int"] ->
    exists x, scalar_is inst name x.
  Proof.
    intros I P T TT. destruct (scalar_exists _ _ I) as (n & w & v & N & L & HO & A). rewrite P in N, L.
    assert (v = w) as -> by (eapply plain_type; [exact T|cbn in TT; destruct TT as [<-|[<-|[]]]; discriminate|exact N|exact HO]).
    destruct (parsed _ _ _ T) as (n' & pr & x & u & N' & E & C & CB & PA & w' & L' & W & _); [cbn in TT |- *; tauto|].
    rewrite N in N'. injection N' as <-. rewrite L in L'. injection L' as <-. specialize (CB eq_refl).
    destruct (create_parser_type _ _ C) as (d & tn & -> & Hd & Hl). unfold entry in E. rewrite Hd in E. injection E as ->.
    assert (TY : p_type pr = TFloat \/ p_type pr = TInt) by (cbn in TT; destruct TT as [<-|[<-|[]]]; cbn in Hl; injection Hl as <-; auto).
    destruct (parse_num _ _ _ _ TY PA) as [(_ & F & _)|(_ & _ & F1 & F2)]; [congruence|].
    destruct TY as [TY|TY].
    - destruct (F1 TY) as [f ->]. specialize (W eq_refl ltac:(discriminate)). subst w. destruct (RN _ _ L) as [q ->]. exists (Q2R q), (VFloat (FFin q)). auto.
    - destruct (F2 TY) as [z ->]. specialize (W eq_refl ltac:(discriminate)). subst w. exists (IZR z), (VInt z). auto.
  Qed.
  Lemma have_limit name rest path b : In (name, Text ("::" ++ rest)%string) decls -> str_split rest "." = path -> node_type path = Some ("float", b) ->
    exists x, limit_is inst name x.
  Proof.
    intros I P T. destruct (scalar_exists _ _ I) as (n & w & v & N & L & HO & A). rewrite P in N, L.
    assert (v = w) as -> by (eapply plain_type; [exact T|discriminate|exact N|exact HO]).
    destruct (parsed _ _ _ T) as (n' & pr & x & u & N' & E & C & CB & PA & w' & L' & W & _); [cbn; tauto|].
    rewrite N in N'. injection N' as <-. rewrite L in L'. injection L' as <-.
    destruct (create_parser_type _ _ C) as (d & tn & -> & Hd & Hl). unfold entry in E. rewrite Hd in E. injection E as ->. cbn in Hl. injection Hl as Hl. symmetry in Hl.
    destruct (parse_num _ _ _ _ (or_introl Hl) PA) as [(-> & _)|(_ & _ & F1 & _)].
    - specialize (W eq_refl ltac:(discriminate)). subst w. exists None, (VBool false). auto.
    - destruct (F1 Hl) as [f ->]. specialize (W eq_refl ltac:(discriminate)). subst w. destruct (RN _ _ L) as [q ->]. exists (Some (Q2R q)), (VFloat (FFin q)). auto.
  Qed.
  Lemma have_flag name rest path b : In (name, Text ("::" ++ rest)%string) decls -> str_split rest "." = path -> node_type path = Some ("bool", b) ->
    exists x, flag_is inst name x.
  Proof.
    intros I P T. destruct (scalar_exists _ _ I) as (n & w & v & N & L & HO & A). rewrite P in N, L.
    assert (v = w) as -> by (eapply plain_type; [exact T|discriminate|exact N|exact HO]).
    destruct (parsed _ _ _ T) as (n' & pr & x & u & N' & E & C & CB & PA & w' & L' & W & _); [cbn; tauto|].
    rewrite N in N'. injection N' as <-. rewrite L in L'. injection L' as <-.
    destruct (create_parser_type _ _ C) as (d & tn & -> & Hd & Hl). unfold entry in E. rewrite Hd in E. injection E as ->. cbn in Hl. injection Hl as Hl. symmetry in Hl.
    assert (K : exists b', u = VBool b').
    { destruct pr as [ty dd cb mn mx al un vp kp]. cbn [p_type] in Hl. subst ty. cbn [parse] in PA.
      destruct (cb && is_falsy x); [injection PA as <-; eauto|]. destruct (is_truthy x); [injection PA as <-; eauto|]. destruct (is_falsy x); [injection PA as <-; eauto|discriminate]. }
    destruct K as [b' ->]. specialize (W eq_refl ltac:(discriminate)). subst w. exists b'. exact A.
  Qed.
  Lemma have_optional name rest path b : In (name, Text ("::" ++ rest)%string) decls -> str_split rest "." = path -> node_type path = Some ("quantity", b) ->
    exists x, limit_is inst name x /\ (b = true -> x <> None).
  Proof.
    intros I P T. destruct (scalar_exists _ _ I) as (n & w & v & N & L & HO & A). rewrite P in N, L.
    destruct (parsed _ _ _ T) as (n' & pr & x & u & N' & E & C & CB & PA & w' & L' & _ & W); [cbn; tauto|].
    rewrite N in N'. injection N' as <-. rewrite L in L'. injection L' as <-.
    assert (Q : has_type n "quantity") by exact E.
    destruct HO as [(_ & -> & ->)|[(_ & NF & u' & q & U & PI & ->)|[Q' _]]]; [| |contradiction].
    - exists None. split; [exists (VBool false); auto|]. intros ->. exfalso. specialize (CB eq_refl). specialize (W eq_refl).
      destruct (create_parser_type _ _ C) as (d & tn & -> & Hd & Hl). unfold entry in E. rewrite Hd in E. injection E as ->. cbn in Hl. injection Hl as Hl. symmetry in Hl.
      destruct pr as [ty dd cb mn mx al un vp kp]. cbn [p_type p_cbf] in *. subst ty cb. cbn [parse andb] in PA. unfold quant in PA. cbn [andb] in PA.
      destruct un; try discriminate. destruct (o_pint o _ _) as [q|e] eqn:EP; cbn [bind] in PA; [|destruct e; discriminate PA]. injection PA as <-.
      subst x. apply (RF _ _ EP).
    - exists (Some (Q2R q)). split; [exists (VFloat (FFin q)); auto|discriminate].
  Qed.
  Lemma have_quantity name rest path : In (name, Text ("::" ++ rest)%string) decls -> str_split rest "." = path -> node_type path = Some ("quantity", true) ->
    exists x, scalar_is inst name x.
  Proof.
    intros I P T. destruct (have_optional _ _ _ _ I P T) as ([x|] & (v & A & V) & N); [|destruct (N eq_refl eq_refl)]. exists x, v. auto.
  Qed.
  Lemma have_regime : In ("effort_sharing_regime", Text "::effort sharing.regime") decls -> exists e, text_is inst "effort_sharing_regime" (regime_name e).
  Proof.
    intros I. destruct acc as (raw & A).
    assert (K : check_module (["effort sharing"; "regime"], ["noregime"; "equal_mitigation_costs"; "per_cap_convergence"; "equal_total_costs"]) = true) by (vm_compute; reflexivity).
    destruct (check_module_value _ _ _ _ _ _ A K) as (s & S & L). cbn [fst snd] in *.
    destruct (scalar_exists _ "effort sharing.regime" I) as (n & w & v & N & L' & HO & AS).
    change (str_split "effort sharing.regime" ".") with ["effort sharing"; "regime"] in *. rewrite L in L'. injection L' as <-.
    assert (v = VStr s) as -> by (eapply (plain_type ["effort sharing"; "regime"] "enum" true); [vm_compute; reflexivity|discriminate|exact N|exact HO]).
    cbn [In] in S. destruct S as [<-|[<-|[<-|[<-|[]]]]]; [exists noregime|exists equal_mitigation_costs|exists per_cap_convergence|exists equal_total_costs]; exact AS.
  Qed.
  (** Regional data *)
  Definition number_or_0 (v : pyval) : R := match number v with Ok x => x | Err _ => 0 end.
  Definition text_or_empty (v : pyval) : string := match v with VStr s => s | _ => "" end.
  Lemma by_region name l g : data_of inst name = Ok (ByRegion l) -> (forall r v, In (r, v) l -> g r = Ok v) ->
    (exists f, regional_is inst name f) /\ exists f, texts_are inst name f.
  Proof.
    intros A G. split.
    - exists (fun r => match g r with Ok v => number_or_0 v | Err _ => 0 end), l. split; [exact A|]. intros r v x I N. rewrite (G _ _ I). unfold number_or_0. rewrite N. reflexivity.
    - exists (fun r => match g r with Ok v => text_or_empty v | Err _ => "" end), l. split; [exact A|]. intros r s I. rewrite (G _ _ I). reflexivity.
  Qed.
  Lemma have_column name cat col : plain_columns o (i_params inst) -> reads o (i_params inst) name cat col -> In name (map fst decls) ->
    (combined (i_params inst) -> ~ In name combined_names) -> (exists f, regional_is inst name f) /\ exists f, texts_are inst name f.
  Proof.
    intros PC RD ID NB. destruct (C10_regional_values_pf _ _ _ _ _ _ _ _ H PC ch decls name cat col CH MP ID RD (NC name) NB) as (l & A & ML & K).
    exact (by_region _ _ _ A K).
  Qed.
  Lemma have_series name var : In (name, var) [("population", "population"); ("baseline_GDP", "GDP"); ("baseline_emissions", "emissions")] -> exists f, series_is inst name f.
  Proof.
    intros I. destruct (C10_data_values_pf _ _ _ _ _ _ _ _ H name var I (NC name)) as (l & A & _ & K).
    exists (fun t r => match interp_data (i_args inst) (i_series inst) (year_at (a_start (i_args inst)) (a_dt (i_args inst)) t) r var with Ok x => x | Err _ => 0 end), l.
    split; [exact A|]. intros t r x X. rewrite (K _ _ _ X). reflexivity.
  Qed.
End Exist.

Lemma module_decls o disk mo uf sp c user inst dm tr tn we ob : construct o disk mo uf sp c user = Ok inst ->
  module_is inst "damage module" (damage_name dm) -> module_is inst "emissiontrade module" (trade_name tr) -> module_is inst "financialtransfer module" (transfer_name tn) ->
  module_is inst "welfare module" (welfare_name we) -> module_is inst "objective module" (objective_name ob) ->
  exists ch decls, choices_of (i_params inst) = Ok ch /\ model_params ch = Ok decls /\
    (forall d, In d (base_params ++ emissions_params ++ mitigation_params ++ effort_params ++ cobbdouglas_params ++ elasmu_params ++ objective_params) -> In d decls) /\
    (dm = COACCH -> forall d, In d coacch_params -> In d decls) /\
    (tr = globalcostpool -> forall d, In d globalcostpool_params -> In d decls) /\
    (we = inequal_aversion_general -> forall d, In d inequal_params -> In d decls).
Proof.
  intros H D T F W OB. destruct (construct_inv _ _ _ _ _ _ _ _ H) as (raw & rs & ch & decls & start & dt & _ & _ & _ & _ & H5 & H6 & _).
  exists ch, decls. split; [exact H5|]. split; [exact H6|]. unfold module_is in *.
  apply config_lookup in D, T, F, W, OB. unfold choices_of in H5. rewrite D in H5. cbn [bind] in H5. rewrite T in H5. cbn [bind] in H5.
  rewrite F in H5. cbn [bind] in H5. rewrite W in H5. cbn [bind] in H5. rewrite OB in H5. cbn [bind] in H5. apply Ok_inj in H5. subst ch.
  unfold model_params in H6. cbn [c_damage c_trade c_transfer c_welfare c_objective] in H6.
  assert (E : decls = base_params ++ emissions_params ++ slr_params ++ (match dm with COACCH => coacch_params | nodamage => [] end) ++ mitigation_params ++
     (match tr with notrade => notrade_params | globalcostpool => globalcostpool_params | emissiontrade => [] end) ++
     (match tn with notransfer => notransfer_params | globaldamagepool => [] end) ++ effort_params ++ cobbdouglas_params ++
     (match we with inequal_aversion_general => inequal_params | _ => elasmu_params end) ++ objective_params).
  { destruct dm, tr, tn, we, ob;
      cbn [chosen damage_name trade_name transfer_name welfare_name objective_name find fst snd String.eqb Ascii.eqb Bool.eqb bind] in H6; apply Ok_inj in H6; exact H6. }
  clear H6. subst decls. split; [|split; [|split]].
  - intros d I. rewrite !in_app_iff in *. assert (In d elasmu_params -> In d (match we with inequal_aversion_general => inequal_params | _ => elasmu_params end)).
    { destruct we; auto. unfold elasmu_params, inequal_params. cbn. tauto. } tauto.
  - intros -> d I. rewrite !in_app_iff. tauto.
  - intros -> d I. rewrite !in_app_iff. tauto.
  - intros -> d I. rewrite !in_app_iff. tauto.
Qed.
Lemma modules_exist o user raw inst : accepted o user raw (i_params inst) (i_tree inst) ->
  exists dm tr tn we ob, module_is inst "damage module" (damage_name dm) /\ module_is inst "emissiontrade module" (trade_name tr) /\
    module_is inst "financialtransfer module" (transfer_name tn) /\ module_is inst "welfare module" (welfare_name we) /\ module_is inst "objective module" (objective_name ob).
Proof.
  intros A.
  destruct (module_value _ _ _ _ _ (nth 0 module_texts ([], [])) A ltac:(cbn; tauto)) as (s0 & S0 & L0).
  destruct (module_value _ _ _ _ _ (nth 1 module_texts ([], [])) A ltac:(cbn; tauto)) as (s1 & S1 & L1).
  destruct (module_value _ _ _ _ _ (nth 2 module_texts ([], [])) A ltac:(cbn; tauto)) as (s2 & S2 & L2).
  destruct (module_value _ _ _ _ _ (nth 3 module_texts ([], [])) A ltac:(cbn; tauto)) as (s3 & S3 & L3).
  destruct (module_value _ _ _ _ _ (nth 4 module_texts ([], [])) A ltac:(cbn; tauto)) as (s4 & S4 & L4).
  cbn [nth module_texts fst snd In] in *.
  assert (X0 : exists m, damage_name m = s0) by (destruct S0 as [<-|[<-|[]]]; [exists COACCH|exists nodamage]; reflexivity).
  assert (X1 : exists m, trade_name m = s1) by (destruct S1 as [<-|[<-|[<-|[]]]]; [exists notrade|exists globalcostpool|exists emissiontrade]; reflexivity).
  assert (X2 : exists m, transfer_name m = s2) by (destruct S2 as [<-|[<-|[]]]; [exists notransfer|exists globaldamagepool]; reflexivity).
  assert (X3 : exists m, welfare_name m = s3) by (destruct S3 as [<-|[<-|[<-|[]]]]; [exists welfare_loss_minimising|exists cost_minimising|exists inequal_aversion_general]; reflexivity).
  assert (X4 : exists m, objective_name m = s4) by (destruct S4 as [<-|[<-|[]]]; [exists utility|exists globalcosts]; reflexivity).
  destruct X0 as [m0 <-], X1 as [m1 <-], X2 as [m2 <-], X3 as [m3 <-], X4 as [m4 <-]. exists m0, m1, m2, m3, m4. unfold module_is. auto.
Qed.
Lemma when {A} (P : Prop) (Q : A -> Prop) (a : A) : {P} + {~ P} -> (P -> exists x, Q x) -> exists x, P -> Q x.
Proof. intros [p|n] E; [destruct (E p) as [x X]; exists x; auto|exists a; tauto]. Qed.
Lemma damage_dec (m : damage_module) : {m = COACCH} + {m <> COACCH}. Proof. destruct m; [left; reflexivity|right; discriminate]. Qed.
Lemma trade_dec (m : trade_module) : {m = globalcostpool} + {m <> globalcostpool}. Proof. destruct m; [right; discriminate|left; reflexivity|right; discriminate]. Qed.
Lemma welfare_dec (m : welfare_module) : {m = inequal_aversion_general} + {m <> inequal_aversion_general}. Proof. destruct m; [right; discriminate|right; discriminate|left; reflexivity]. Qed.
Definition no_damage : dmg := {| d_form := fun _ => ""; d_b1 := fun _ => 0; d_b2 := fun _ => 0; d_b3 := fun _ => 0; d_a := fun _ => 0 |}.

(** Non-vacuity of the other C60 theorems: a constructed instance with a non-empty horizon, in which every number is a real number,
    always gives a model. *)
Lemma C60_loadable_pf : forall o disk mo uf sp c user inst, distinct_keys user ->
  construct o disk mo uf sp c user = Ok inst -> (forall name, ~ customised (i_params inst) name) -> plain_columns o (i_params inst) ->
  real_numbers (i_params inst) -> rejects_false o -> a_start (i_args inst) <= a_end (i_args inst) -> 0 < a_dt (i_args inst) ->
  exists p, loads inst p.
Proof.
  intros o disk mo uf sp c user inst DU H NC PC RN RF SE DP.
  destruct (acc _ _ _ _ _ _ _ _ DU H) as (raw & A).
  destruct (modules_exist _ _ _ _ A) as (dm & tr & tn & we & ob & M1 & M2 & M3 & M4 & M5).
  destruct (module_decls _ _ _ _ _ _ _ _ _ _ _ _ _ H M1 M2 M3 M4 M5) as (ch & decls & CH & MP & COM & CO & PO & IN).
  destruct (C10_grid_values_pf _ _ _ _ _ _ _ _ H (fun name _ => NC name)) as (start & d & LS & LD & A1 & A2 & _ & A4 & A5).
  assert (I_ci : In ("use_carbon_intensity_for_baseline", Text ("::" ++ "emissions.baseline carbon intensity")%string) decls) by (apply COM; listed).
  destruct (have_flag _ _ _ _ _ _ _ _ _ _ DU H NC CH MP "use_carbon_intensity_for_baseline" "emissions.baseline carbon intensity" _ true I_ci eq_refl ltac:(vm_compute; reflexivity)) as [ci CI].
  assert (I_tz : In ("cumulative_emissions_trapz", Text ("::" ++ "emissions.cumulative_emissions_trapz")%string) decls) by (apply COM; listed).
  destruct (have_flag _ _ _ _ _ _ _ _ _ _ DU H NC CH MP "cumulative_emissions_trapz" "emissions.cumulative_emissions_trapz" _ true I_tz eq_refl ltac:(vm_compute; reflexivity)) as [tz TZ].
  assert (I_ni : In ("non_increasing_emissions_after_2100", Text ("::" ++ "emissions.non increasing emissions after 2100")%string) decls) by (apply COM; listed).
  destruct (have_flag _ _ _ _ _ _ _ _ _ _ DU H NC CH MP "non_increasing_emissions_after_2100" "emissions.non increasing emissions after 2100" _ true I_ni eq_refl ltac:(vm_compute; reflexivity)) as [ni NI].
  assert (I_np : In ("no_pos_emissions_after_budget_year", Text ("::" ++ "emissions.not positive after budget year")%string) decls) by (apply COM; listed).
  destruct (have_flag _ _ _ _ _ _ _ _ _ _ DU H NC CH MP "no_pos_emissions_after_budget_year" "emissions.not positive after budget year" _ true I_np eq_refl ltac:(vm_compute; reflexivity)) as [np NP].
  assert (I_ig : In ("ignore_damages", Text ("::" ++ "economics.damages.ignore damages")%string) decls) by (apply COM; listed).
  destruct (have_flag _ _ _ _ _ _ _ _ _ _ DU H NC CH MP "ignore_damages" "economics.damages.ignore damages" _ true I_ig eq_refl ltac:(vm_compute; reflexivity)) as [ig IG].
  assert (I_tin : In ("T0", Text ("::" ++ "temperature.initial")%string) decls) by (apply COM; listed).
  destruct (have_quantity _ _ _ _ _ _ _ _ _ _ DU H NC CH MP RF "T0" "temperature.initial" _ I_tin eq_refl ltac:(vm_compute; reflexivity)) as [tin TIN].
  assert (I_tcr : In ("TCRE", Text ("::" ++ "temperature.TCRE")%string) decls) by (apply COM; listed).
  destruct (have_quantity _ _ _ _ _ _ _ _ _ _ DU H NC CH MP RF "TCRE" "temperature.TCRE" _ I_tcr eq_refl ltac:(vm_compute; reflexivity)) as [tcr TCR].
  assert (I_gam : In ("MAC_gamma", Text ("::" ++ "economics.MAC.gamma")%string) decls) by (apply COM; listed).
  destruct (have_quantity _ _ _ _ _ _ _ _ _ _ DU H NC CH MP RF "MAC_gamma" "economics.MAC.gamma" _ I_gam eq_refl ltac:(vm_compute; reflexivity)) as [gam GAM].
  assert (I_lbs : In ("LBD_scaling", Text ("::" ++ "economics.MAC.LBD_scaling")%string) decls) by (apply COM; listed).
  destruct (have_quantity _ _ _ _ _ _ _ _ _ _ DU H NC CH MP RF "LBD_scaling" "economics.MAC.LBD_scaling" _ I_lbs eq_refl ltac:(vm_compute; reflexivity)) as [lbs LBS].
  assert (I_tgt : In ("temperature_target", Text ("::" ++ "temperature.target")%string) decls) by (apply COM; listed).
  destruct (have_optional _ _ _ _ _ _ _ _ _ _ DU H NC CH MP RF "temperature_target" "temperature.target" _ false I_tgt eq_refl ltac:(vm_compute; reflexivity)) as (tgt & TGT & _).
  assert (I_bud : In ("budget", Text ("::" ++ "emissions.carbonbudget")%string) decls) by (apply COM; listed).
  destruct (have_optional _ _ _ _ _ _ _ _ _ _ DU H NC CH MP RF "budget" "emissions.carbonbudget" _ false I_bud eq_refl ltac:(vm_compute; reflexivity)) as (bud & BUD & _).
  assert (I_gmin : In ("global_min_level", Text ("::" ++ "emissions.global min level")%string) decls) by (apply COM; listed).
  destruct (have_optional _ _ _ _ _ _ _ _ _ _ DU H NC CH MP RF "global_min_level" "emissions.global min level" _ false I_gmin eq_refl ltac:(vm_compute; reflexivity)) as (gmin & GMIN & _).
  assert (I_rmin : In ("regional_min_level", Text ("::" ++ "emissions.regional min level")%string) decls) by (apply COM; listed).
  destruct (have_optional _ _ _ _ _ _ _ _ _ _ DU H NC CH MP RF "regional_min_level" "emissions.regional min level" _ false I_rmin eq_refl ltac:(vm_compute; reflexivity)) as (rmin & RMIN & _).
  assert (I_ing : In ("inertia_global", Text ("::" ++ "emissions.inertia.global")%string) decls) by (apply COM; listed).
  destruct (have_limit _ _ _ _ _ _ _ _ _ _ DU H NC CH MP RN "inertia_global" "emissions.inertia.global" _ false I_ing eq_refl ltac:(vm_compute; reflexivity)) as [ing ING].
  assert (I_inr : In ("inertia_regional", Text ("::" ++ "emissions.inertia.regional")%string) decls) by (apply COM; listed).
  destruct (have_limit _ _ _ _ _ _ _ _ _ _ DU H NC CH MP RN "inertia_regional" "emissions.inertia.regional" _ false I_inr eq_refl ltac:(vm_compute; reflexivity)) as [inr INR].
  assert (I_pcy : In ("percapconv_year", Text ("::" ++ "effort sharing.percapconv_year")%string) decls) by (apply COM; listed).
  destruct (have_limit _ _ _ _ _ _ _ _ _ _ DU H NC CH MP RN "percapconv_year" "effort sharing.percapconv_year" _ false I_pcy eq_refl ltac:(vm_compute; reflexivity)) as [pcy PCY].
  assert (I_rev : In ("perc_reversible_damages", Text ("::" ++ "economics.damages.percentage reversible")%string) decls) by (apply COM; listed).
  destruct (have_number _ _ _ _ _ _ _ _ _ _ DU H NC CH MP RN "perc_reversible_damages" "economics.damages.percentage reversible" _ "float" I_rev eq_refl ltac:(vm_compute; reflexivity) ltac:(cbn; tauto)) as [rev REV].
  assert (I_bet : In ("MAC_beta", Text ("::" ++ "economics.MAC.beta")%string) decls) by (apply COM; listed).
  destruct (have_number _ _ _ _ _ _ _ _ _ _ DU H NC CH MP RN "MAC_beta" "economics.MAC.beta" _ "float" I_bet eq_refl ltac:(vm_compute; reflexivity) ltac:(cbn; tauto)) as [bet BET].
  assert (I_mic : In ("rel_mitigation_costs_min_level", Text ("::" ++ "economics.MAC.rel_mitigation_costs_min_level")%string) decls) by (apply COM; listed).
  destruct (have_number _ _ _ _ _ _ _ _ _ _ DU H NC CH MP RN "rel_mitigation_costs_min_level" "economics.MAC.rel_mitigation_costs_min_level" _ "float" I_mic eq_refl ltac:(vm_compute; reflexivity) ltac:(cbn; tauto)) as [mic MIC].
  assert (I_lbr : In ("LBD_rate", Text ("::" ++ "economics.MAC.LBD_rate")%string) decls) by (apply COM; listed).
  destruct (have_number _ _ _ _ _ _ _ _ _ _ DU H NC CH MP RN "LBD_rate" "economics.MAC.LBD_rate" _ "float" I_lbr eq_refl ltac:(vm_compute; reflexivity) ltac:(cbn; tauto)) as [lbr LBR].
  assert (I_lot : In ("LOT_rate", Text ("::" ++ "economics.MAC.LOT_rate")%string) decls) by (apply COM; listed).
  destruct (have_number _ _ _ _ _ _ _ _ _ _ DU H NC CH MP RN "LOT_rate" "economics.MAC.LOT_rate" _ "float" I_lot eq_refl ltac:(vm_compute; reflexivity) ltac:(cbn; tauto)) as [lot LOT].
  assert (I_alp : In ("alpha", Text ("::" ++ "economics.GDP.alpha")%string) decls) by (apply COM; listed).
  destruct (have_number _ _ _ _ _ _ _ _ _ _ DU H NC CH MP RN "alpha" "economics.GDP.alpha" _ "float" I_alp eq_refl ltac:(vm_compute; reflexivity) ltac:(cbn; tauto)) as [alp ALP].
  assert (I_dep : In ("dk", Text ("::" ++ "economics.GDP.depreciation of capital")%string) decls) by (apply COM; listed).
  destruct (have_number _ _ _ _ _ _ _ _ _ _ DU H NC CH MP RN "dk" "economics.GDP.depreciation of capital" _ "float" I_dep eq_refl ltac:(vm_compute; reflexivity) ltac:(cbn; tauto)) as [dep DEP].
  assert (I_sav : In ("sr", Text ("::" ++ "economics.GDP.savings rate")%string) decls) by (apply COM; listed).
  destruct (have_number _ _ _ _ _ _ _ _ _ _ DU H NC CH MP RN "sr" "economics.GDP.savings rate" _ "float" I_sav eq_refl ltac:(vm_compute; reflexivity) ltac:(cbn; tauto)) as [sav SAV].
  assert (I_ela : In ("elasmu", Text ("::" ++ "economics.elasmu")%string) decls) by (apply COM; listed).
  destruct (have_number _ _ _ _ _ _ _ _ _ _ DU H NC CH MP RN "elasmu" "economics.elasmu" _ "float" I_ela eq_refl ltac:(vm_compute; reflexivity) ltac:(cbn; tauto)) as [ela ELA].
  assert (I_prt : In ("PRTP", Text ("::" ++ "economics.PRTP")%string) decls) by (apply COM; listed).
  destruct (have_number _ _ _ _ _ _ _ _ _ _ DU H NC CH MP RN "PRTP" "economics.PRTP" _ "float" I_prt eq_refl ltac:(vm_compute; reflexivity) ltac:(cbn; tauto)) as [prt PRT].
  destruct (have_regime _ _ _ _ _ _ _ _ _ _ DU H NC CH MP ltac:(apply COM; listed)) as [reg REG].
  destruct (have_series _ _ _ _ _ _ _ _ H NC "population" "population" ltac:(cbn; auto)) as [pop POP].
  destruct (have_series _ _ _ _ _ _ _ _ H NC "baseline_GDP" "GDP" ltac:(cbn; auto)) as [gdp GDP].
  destruct (have_series _ _ _ _ _ _ _ _ H NC "baseline_emissions" "emissions" ltac:(cbn; auto)) as [bem BEM].
  assert (DECL : forall name, In name (map fst (base_params ++ emissions_params ++ mitigation_params ++ effort_params ++ cobbdouglas_params ++ elasmu_params ++ objective_params)) -> In name (map fst decls)).
  { intros name I. apply in_map_iff in I as (x & <- & I). apply in_map. apply COM, I. }
  assert (DECLC : dm = COACCH -> forall name, In name (map fst coacch_params) -> In name (map fst decls)).
  { intros E name I. apply in_map_iff in I as (x & <- & I). apply in_map. apply (CO E), I. }
  destruct (lookup_scalar _ _ _ _ _ ["economics"; "MAC"; "regional calibration factor"] A ltac:(vm_compute; reflexivity)) as (kap & KAP & _).
  destruct (lookup_scalar _ _ _ _ _ ["economics"; "damages"; "quantile"] A ltac:(vm_compute; reflexivity)) as (qu & QU & _).
  destruct (lookup_scalar _ _ _ _ _ ["economics"; "damages"; "coacch_slr_withadapt"] A ltac:(vm_compute; reflexivity)) as (ad & AD & _).
  destruct (have_column _ _ _ _ _ _ _ _ _ _ H NC CH MP "init_capitalstock_factor" _ _ PC (reads_capital _ _)) as [[cap CAP] _]; [apply DECL; declared|intros _; apply not_named; reflexivity|].
  destruct (have_column _ _ _ _ _ _ _ _ _ _ H NC CH MP "MAC_scaling_factor" _ _ PC (reads_mac _ _ _ KAP)) as [[msc MSC] _]; [apply DECL; declared|intros _; apply not_named; reflexivity|].
  assert (MORT : dm = COACCH -> forall age, In age ["oldest"; "older"; "young"] -> exists f, triple_is inst ("mortality_param_" ++ age) f).
  { intros E age AG.
    assert (K : forall x, In x ["a"; "b"; "c"] -> exists f, regional_is inst ("mortality_param_" ++ age ++ "_" ++ x)%string f).
    { intros x X. destruct (have_column _ _ _ _ _ _ _ _ _ _ H NC CH MP _ _ _ PC (reads_mortality _ _ age x AG X)) as [K _]; [| |exact K].
      - clear - AG X DECLC E. cbn [In] in AG, X. destruct AG as [<-|[<-|[<-|[]]]]; destruct X as [<-|[<-|[<-|[]]]]; apply (DECLC E); declared.
      - intros _. clear - AG X. cbn [In] in AG, X. destruct AG as [<-|[<-|[<-|[]]]]; destruct X as [<-|[<-|[<-|[]]]]; apply not_named; reflexivity. }
    destruct (K "a") as [fa FA]; [cbn; auto|]. destruct (K "b") as [fb FB]; [cbn; auto|]. destruct (K "c") as [fc FC]; [cbn; auto|].
    exists (fun r => (fa r, fb r, fc r)). unfold triple_is.
    assert (EQ : forall y, (("mortality_param_" ++ age) ++ "_" ++ y = "mortality_param_" ++ age ++ "_" ++ y)%string) by (intros y; apply append_assoc').
    split; [|split]; cbn [fst snd].
    - change "_a" with ("_" ++ "a")%string. rewrite EQ. exact FA.
    - change "_b" with ("_" ++ "b")%string. rewrite EQ. exact FB.
    - change "_c" with ("_" ++ "c")%string. rewrite EQ. exact FC. }
  assert (DMG : dm = COACCH -> forall pre, In pre ["damage_noslr"; "damage_slr"] -> exists dd, damage_is inst pre dd).
  { intros E pre PRE.
    assert (K : forall x, In x ["form"; "b1"; "b2"; "b3"; "a"] -> (exists f, regional_is inst (pre ++ "_" ++ x)%string f) /\ exists f, texts_are inst (pre ++ "_" ++ x)%string f).
    { intros x X. destruct (combined_dec (i_params inst)) as [CB|NB].
      - destruct (C10_combined_damages_pf _ _ _ _ _ _ _ _ DU H CB) as (B & F1 & F2 & F3 & F4 & F5). cbv zeta in *.
        assert (EV : forall name v, assoc name (i_data inst) = Ok (ByRegion (map (fun r => (r, v)) (i_regions inst))) -> (exists f, regional_is inst name f) /\ exists f, texts_are inst name f).
        { intros name v AS. apply (by_region inst name _ (fun _ => Ok v) AS). intros r w I. apply in_map_iff in I as (r' & I & _). injection I as _ <-. reflexivity. }
        assert (BB : forall y, In y ["b1"; "b2"] -> (exists f, regional_is inst ("damage_noslr_" ++ y)%string f) /\ exists f, texts_are inst ("damage_noslr_" ++ y)%string f).
        { intros y Y. destruct (B y Y) as (l & q' & a' & Q' & AD' & AS & ML & K). exact (by_region inst _ _ _ AS K). }
        cbn [In] in PRE, X. destruct PRE as [<-|[<-|[]]].
        + destruct X as [<-|[<-|[<-|[<-|[<-|[]]]]]]; [exact (EV _ _ F1)|apply (BB "b1"); cbn; auto|apply (BB "b2"); cbn; auto|exact (EV _ _ F2)|exact (EV _ _ F3)].
        + destruct X as [<-|[<-|[<-|[<-|[<-|[]]]]]]; [exact (EV _ _ F4)|exact (EV _ _ (F5 "b1" ltac:(cbn; auto)))|exact (EV _ _ (F5 "b2" ltac:(cbn; auto)))|exact (EV _ _ (F5 "b3" ltac:(cbn; auto)))|exact (EV _ _ (F5 "a" ltac:(cbn; auto)))].
      - assert (RD : exists cat col, reads o (i_params inst) (pre ++ "_" ++ x)%string cat col).
        { cbn [In] in PRE, X. destruct PRE as [<-|[<-|[]]].
          - destruct X as [<-|[<-|[<-|[<-|[<-|[]]]]]]; eexists; eexists;
              [exact (reads_noslr _ _ "form" ltac:(cbn; auto))|exact (reads_noslr _ _ "b1" ltac:(cbn; auto))|exact (reads_noslr _ _ "b2" ltac:(cbn; auto))|exact (reads_noslr _ _ "b3" ltac:(cbn; auto))|exact (reads_noslr_a _ _ _ QU)].
          - destruct X as [<-|[<-|[<-|[<-|[<-|[]]]]]]; eexists; eexists;
              [exact (reads_slr _ _ "form" _ ltac:(cbn; auto) AD)|exact (reads_slr _ _ "b1" _ ltac:(cbn; auto) AD)|exact (reads_slr _ _ "b2" _ ltac:(cbn; auto) AD)|exact (reads_slr _ _ "b3" _ ltac:(cbn; auto) AD)|exact (reads_slr_a _ _ _ _ AD QU)]. }
        destruct RD as (cat & col & RD). apply (have_column _ _ _ _ _ _ _ _ _ _ H NC CH MP _ _ _ PC RD).
        + clear - PRE X DECLC E. cbn [In] in PRE, X. destruct PRE as [<-|[<-|[]]]; destruct X as [<-|[<-|[<-|[<-|[<-|[]]]]]]; apply (DECLC E); declared.
        + intros CB. destruct (NB CB). }
    destruct (K "form") as [_ [f0 K0]]; [cbn; auto|]. destruct (K "b1") as [[f1 K1] _]; [cbn; auto|]. destruct (K "b2") as [[f2 K2] _]; [cbn; auto|].
    destruct (K "b3") as [[f3 K3] _]; [cbn; auto|]. destruct (K "a") as [[f4 K4] _]; [cbn; tauto|].
    exists {| d_form := f0; d_b1 := f1; d_b2 := f2; d_b3 := f3; d_a := f4 |}. unfold damage_is. cbn [d_form d_b1 d_b2 d_b3 d_a].
    cbn [In] in PRE. destruct PRE as [<-|[<-|[]]]; auto. }
  destruct (when (dm = COACCH) (fun x => damage_is inst "damage_noslr" x) no_damage (damage_dec dm)) as [dn DN]; [intros E; apply (DMG E); cbn; auto|].
  destruct (when (dm = COACCH) (fun x => damage_is inst "damage_slr" x) no_damage (damage_dec dm)) as [ds DS]; [intros E; apply (DMG E); cbn; auto|].
  destruct (when (dm = COACCH) (fun x => triple_is inst "mortality_param_oldest" x) (fun _ => (0, 0, 0)) (damage_dec dm)) as [m1 MO1]; [intros E; apply (MORT E "oldest"); cbn; auto|].
  destruct (when (dm = COACCH) (fun x => triple_is inst "mortality_param_older" x) (fun _ => (0, 0, 0)) (damage_dec dm)) as [m2 MO2]; [intros E; apply (MORT E "older"); cbn; auto|].
  destruct (when (dm = COACCH) (fun x => triple_is inst "mortality_param_young" x) (fun _ => (0, 0, 0)) (damage_dec dm)) as [m3 MO3]; [intros E; apply (MORT E "young"); cbn; auto|].
  destruct (when (dm = COACCH) (fun x => scalar_is inst "damage_scale_factor" x) 0 (damage_dec dm)) as [dsf DSF].
  { intros E. apply (have_number _ _ _ _ _ _ _ _ _ _ DU H NC CH MP RN "damage_scale_factor" "economics.damages.scale factor" _ "float" ltac:(apply (CO E); listed) eq_refl ltac:(vm_compute; reflexivity) ltac:(cbn; tauto)). }
  destruct (when (tr = globalcostpool) (fun x => limit_is inst "min_rel_payment_level" x) None (trade_dec tr)) as [mp1 MP1].
  { intros E. apply (have_limit _ _ _ _ _ _ _ _ _ _ DU H NC CH MP RN "min_rel_payment_level" "economics.emission trade.min rel payment level" _ false ltac:(apply (PO E); listed) eq_refl ltac:(vm_compute; reflexivity)). }
  destruct (when (tr = globalcostpool) (fun x => limit_is inst "max_rel_payment_level" x) None (trade_dec tr)) as [mp2 MP2].
  { intros E. apply (have_limit _ _ _ _ _ _ _ _ _ _ DU H NC CH MP RN "max_rel_payment_level" "economics.emission trade.max rel payment level" _ false ltac:(apply (PO E); listed) eq_refl ltac:(vm_compute; reflexivity)). }
  destruct (when (we = inequal_aversion_general) (fun x => scalar_is inst "inequal_aversion" x) 0 (welfare_dec we)) as [ina INA].
  { intros E. apply (have_number _ _ _ _ _ _ _ _ _ _ DU H NC CH MP RN "inequal_aversion" "economics.inequal_aversion" _ "float" ltac:(apply (IN E); listed) eq_refl ltac:(vm_compute; reflexivity) ltac:(cbn; tauto)). }
  pose proof (construct_inv _ _ _ _ _ _ _ _ H) as (raw' & rs & ch' & decls' & start' & d' & _ & _ & RS & _ & _ & _ & _ & SA & _ & LS' & LD' & _).
  assert (start' = start) by congruence. assert (d' = d) by congruence. subst start' d'.
  assert (YN : forall v x, year_number v = Ok x -> number v = Ok x) by (intros [| | |[]| | |] x; cbn; try discriminate; auto).
  assert (GRID : number start = Ok (a_start (i_args inst)) /\ number d = Ok (a_dt (i_args inst))).
  { unfold store_args_of in SA. apply config_lookup in LS as LS2. apply config_lookup in LD as LD2. rewrite LS2 in SA. cbn [bind] in SA.
    apply bind_ok in SA as (s & YS & SA). apply bind_ok in SA as (ev & LE & SA). apply bind_ok in SA as (e & YE & SA). rewrite LD2 in SA. cbn [bind] in SA.
    apply bind_ok in SA as (dd & YD & SA). apply bind_ok in SA as (vs & VS & SA). apply bind_ok in SA as (vs2 & VS2 & SA). apply bind_ok in SA as (vs3 & VS3 & SA).
    apply Ok_inj in SA. rewrite SA. cbn [a_start a_dt]. auto. }
  destruct GRID as [G1 G2].
  destruct (C11_grid_covers_horizon_pf _ _ _ DP SE) as (n & _ & N & _).
  exists {| beginyear := a_start (i_args inst); dt := a_dt (i_args inst); tf := n; regions := i_regions inst; population := pop; baseline_GDP := gdp; baseline_emissions := bem;
    use_carbon_intensity := ci; cum_trapz := tz; T0 := tin; TCRE := tcr; temperature_target := tgt; perc_reversible := rev; budget := bud; inertia_global := ing; inertia_regional := inr;
    global_min_level := gmin; regional_min_level := rmin; non_increasing_after_2100 := ni; no_pos_after_budget_year := np; dmg_module := dm; damage_scale_factor := dsf;
    dmg_noslr := dn; dmg_slr := ds; mort_oldest := m1; mort_older := m2; mort_young := m3; MAC_gamma := gam; MAC_beta := bet; MAC_scaling := msc;
    rel_mitigation_costs_min_level := mic; LBD_rate := lbr; LBD_scaling := lbs; LOT_rate := lot; trade := tr; min_rel_payment_level := mp1; max_rel_payment_level := mp2;
    transfer := tn; effort_regime := reg; percapconv_year := pcy; init_capital_factor := cap; alpha := alp; dk := dep; sr := sav; ignore_damages := ig;
    welfare := we; elasmu := ela; inequal_aversion := ina; objective := ob; PRTP := prt |}.
  constructor; cbn [beginyear dt tf regions population baseline_GDP baseline_emissions use_carbon_intensity cum_trapz T0 TCRE temperature_target perc_reversible budget inertia_global inertia_regional
    global_min_level regional_min_level non_increasing_after_2100 no_pos_after_budget_year dmg_module damage_scale_factor dmg_noslr dmg_slr mort_oldest mort_older mort_young MAC_gamma MAC_beta MAC_scaling
    rel_mitigation_costs_min_level LBD_rate LBD_scaling LOT_rate trade min_rel_payment_level max_rel_payment_level transfer effort_regime percapconv_year init_capital_factor alpha dk sr ignore_damages
    welfare elasmu inequal_aversion objective PRTP]; try assumption.
  - exists start. auto.
  - exists d. auto.
  - unfold data_of. rewrite A4. do 3 f_equal. lia.
Qed.
