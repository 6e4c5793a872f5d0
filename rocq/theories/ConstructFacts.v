(** C57: an accepted configuration with complete input files gives an instance. *)
From Verif Require Import PyBase NestedDict NestedDictFacts Parsers Config ConfigDefault ConfigFacts ConfigSpec ConfigBridge ConfigLemmas
  TimeGrid DataStore RegionalParams Instantiate InstFacts InstantiateLemmas.
From Coq Require Import Lia Lra.
Import ListNotations.
Open Scope string_scope.
Open Scope list_scope.
Set Bullet Behavior "Strict Subproofs".

(** The value of an enumerated parameter that cannot be switched off is one of the listed texts. *)
Lemma enum_value o user raw params tree p node l : accepted o user raw params tree -> param_at config_default p node ->
  scalar_node node = true -> quantity_node node = false -> has_type node "enum" -> entry node "can_be_false" = None ->
  entry node "values" = Some (VList (map VStr l)) -> exists s, In s l /\ lookup params p = Some (VStr s).
Proof.
  intros A P S Q E F V.
  destruct (scalar_value_spec _ _ _ _ _ _ _ A P S) as (v & L1 & L2 & _); [rewrite Q; discriminate|].
  destruct A as (_ & C & _).
  destruct (C04_enum_listed_pf o config_default user raw tree p node _ default_distinct C P E V) as (w & W1 & [[_ (x & X & _)]|(y & Y & _ & W)]).
  - rewrite F in X. discriminate X.
  - apply in_map_iff in Y as (s & <- & Y). specialize (W s eq_refl). rewrite W1 in L1. injection L1 as <-. rewrite W in L2. eauto.
Qed.

Definition module_texts : list (list string * list string) :=
  [(["model"; "damage module"], ["COACCH"; "nodamage"]);
   (["model"; "emissiontrade module"], ["notrade"; "globalcostpool"; "emissiontrade"]);
   (["model"; "financialtransfer module"], ["notransfer"; "globaldamagepool"]);
   (["model"; "welfare module"], ["welfare_loss_minimising"; "cost_minimising"; "inequal_aversion_general"]);
   (["model"; "objective module"], ["utility"; "globalcosts"])].
Definition is_text_list (v : pyval) (l : list string) : bool :=
  match v with
  | VList vs => if list_eq_dec string_dec (flat_map (fun x => match x with VStr s => [s] | _ => [] end) vs) l
                then forallb (fun x => match x with VStr _ => true | _ => false end) vs else false
  | _ => false
  end.
Lemma is_text_list_ok v l : is_text_list v l = true -> v = VList (map VStr l).
Proof.
  destruct v as [| | | | |vs|]; try discriminate. cbn. destruct (list_eq_dec _ _ _) as [<-|]; [|discriminate].
  intros H. f_equal. induction vs as [|[| | | |s| |] vs IH]; cbn in *; try discriminate; [reflexivity|]. f_equal. auto.
Qed.
Definition check_module (pl : list string * list string) : bool :=
  match template_node (fst pl) with
  | Some n => scalar_node n && negb (quantity_node n) &&
      match entry n "type" with Some (VStr s) => String.eqb s "enum" | _ => false end &&
      match entry n "can_be_false" with None => true | _ => false end &&
      match entry n "values" with
      | Some v => existsb (fun l => is_text_list v l && forallb (fun s => existsb (String.eqb s) (snd pl)) l)
                    [match v with VList vs => flat_map (fun x => match x with VStr s => [s] | _ => [] end) vs | _ => [] end]
      | None => false end
  | None => false
  end.
Lemma modules_checked : forallb check_module module_texts = true.
Proof. vm_compute. reflexivity. Qed.
Lemma check_module_value o user raw params tree pl : accepted o user raw params tree -> check_module pl = true ->
  exists s, In s (snd pl) /\ lookup params (fst pl) = Some (VStr s).
Proof.
  intros A H. unfold check_module in H. destruct (template_node (fst pl)) as [n|] eqn:T; [|discriminate].
  apply template_node_ok in T. rewrite !Bool.andb_true_iff in H. destruct H as ((((H1 & H2) & H3) & H4) & H5).
  apply Bool.negb_true_iff in H2. destruct (entry n "values") as [v|] eqn:V; [|discriminate].
  apply existsb_exists in H5 as (l & _ & H5). apply Bool.andb_true_iff in H5 as [H5 H6]. apply is_text_list_ok in H5. subst v.
  destruct (enum_value _ _ _ _ _ _ _ l A T H1 H2) as (s & S1 & S2).
  - unfold has_type. destruct (entry n "type") as [[| | | |s| |]|]; try discriminate. apply String.eqb_eq in H3. subst. reflexivity.
  - destruct (entry n "can_be_false"); [discriminate|reflexivity].
  - exact V.
  - exists s. split; [|exact S2]. rewrite forallb_forall in H6. specialize (H6 s S1). apply existsb_exists in H6 as (y & Y1 & Y2).
    apply String.eqb_eq in Y2. subst. exact Y1.
Qed.
Lemma module_value o user raw params tree pl : accepted o user raw params tree -> In pl module_texts ->
  exists s, In s (snd pl) /\ lookup params (fst pl) = Some (VStr s).
Proof.
  intros A I. pose proof modules_checked as K. rewrite forallb_forall in K. apply (check_module_value _ _ _ _ _ _ A (K _ I)).
Qed.

(** An accepted configuration always chooses existing modules. *)
Lemma choices_exist o user raw params tree : accepted o user raw params tree ->
  exists ch decls, choices_of params = Ok ch /\ model_params ch = Ok decls /\
    (lookup params ["model"; "damage module"] <> Some (VStr "COACCH") -> forall nd, In nd decls -> In nd coacch_params -> False) /\
    (lookup params ["model"; "damage module"] = Some (VStr "COACCH") \/ lookup params ["model"; "damage module"] = Some (VStr "nodamage")).
Proof.
  intros A.
  destruct (module_value _ _ _ _ _ (nth 0 module_texts ([], [])) A ltac:(cbn; tauto)) as (s0 & S0 & L0).
  destruct (module_value _ _ _ _ _ (nth 1 module_texts ([], [])) A ltac:(cbn; tauto)) as (s1 & S1 & L1).
  destruct (module_value _ _ _ _ _ (nth 2 module_texts ([], [])) A ltac:(cbn; tauto)) as (s2 & S2 & L2).
  destruct (module_value _ _ _ _ _ (nth 3 module_texts ([], [])) A ltac:(cbn; tauto)) as (s3 & S3 & L3).
  destruct (module_value _ _ _ _ _ (nth 4 module_texts ([], [])) A ltac:(cbn; tauto)) as (s4 & S4 & L4).
  cbn [nth module_texts fst snd] in *.
  unfold choices_of. apply config_lookup in L0, L1, L2, L3, L4. rewrite L0, L1, L2, L3, L4. cbn [bind].
  eexists. apply config_lookup in L0. rewrite L0.
  assert (D : exists decls, model_params {| c_damage := VStr s0; c_trade := VStr s1; c_transfer := VStr s2; c_welfare := VStr s3; c_objective := VStr s4 |} = Ok decls /\
    (s0 <> "COACCH" -> forallb (fun nd => negb (existsb (fun cd => String.eqb (fst cd) (fst nd)) coacch_params)) decls = true) /\ (s0 = "COACCH" \/ s0 = "nodamage")).
  { cbn [In] in S0, S1, S2, S3, S4.
    destruct S0 as [<-|[<-|[]]]; destruct S1 as [<-|[<-|[<-|[]]]]; destruct S2 as [<-|[<-|[]]]; destruct S3 as [<-|[<-|[<-|[]]]]; destruct S4 as [<-|[<-|[]]];
      (eexists; split; [reflexivity|split; [first [intros N; exfalso; apply N; reflexivity|intros _; vm_compute; reflexivity]|auto]]). }
  destruct D as (decls & M & N & C). exists decls. split; [reflexivity|]. split; [exact M|]. split.
  - intros NE nd I1 I2. assert (NE' : s0 <> "COACCH") by congruence. specialize (N NE'). rewrite forallb_forall in N. specialize (N _ I1).
    apply Bool.negb_true_iff in N. rewrite <- Bool.not_true_iff_false in N. apply N, existsb_exists. exists nd. split; [exact I2|apply String.eqb_refl].
  - destruct C as [->| ->]; auto.
Qed.

(** *** Reading succeeds *)
Lemma get_ok mo st cat col rs : (forall r, In r rs -> exists v, getregional mo st cat col r = Ok v) ->
  exists l, RegionalParams.get mo st cat col rs = Ok l.
Proof.
  induction rs as [|r rs IH]; intros H; [exists []; reflexivity|]. cbn [RegionalParams.get].
  destruct (H r (or_introl eq_refl)) as [v ->]. cbn [bind]. destruct (IH (fun r' I => H r' (or_intror I))) as [l ->]. cbn. eauto.
Qed.
Lemma map_result_ok {A B} (f : A -> result B) l : (forall x, In x l -> exists y, f x = Ok y) -> exists l', map_result f l = Ok l'.
Proof.
  induction l as [|x l IH]; intros H; [exists []; reflexivity|]. cbn [map_result].
  destruct (H x (or_introl eq_refl)) as [y ->]. cbn [bind]. destruct (IH (fun x' I => H x' (or_intror I))) as [l' ->]. cbn. eauto.
Qed.

(** every declared parameter with a regional source *)
Lemma decl_cases o params a k q : lookup params ["economics"; "damages"; "coacch_slr_withadapt"] = Some a ->
  lookup params ["economics"; "MAC"; "regional calibration factor"] = Some k ->
  lookup params ["economics"; "damages"; "quantile"] = Some q ->
  forall name d, In (name, d) all_decls ->
  (exists cat col, reads o params name cat col) \/
  (exists s, d = Text s /\ str_startswith s "regional::" = false).
Proof.
  intros A K Q name d I. unfold all_decls in I. cbn [app base_params emissions_params slr_params coacch_params mitigation_params notrade_params
    globalcostpool_params notransfer_params effort_params cobbdouglas_params inequal_params objective_params map] in I.
  repeat (destruct I as [I|I]; [injection I as <- <-; first
    [ right; eexists; split; [reflexivity|reflexivity]
    | left; do 2 eexists; first
      [ apply reads_capital | eapply reads_mac; exact K | eapply (reads_noslr_a o params); exact Q | eapply (reads_slr_a o params); eassumption
      | match goal with |- reads _ _ ?n _ _ => let x := eval vm_compute in (substring 13 4 n) in eapply (reads_noslr o params x); cbn; tauto end
      | match goal with |- reads _ _ ?n _ _ => let x := eval vm_compute in (substring 11 4 n) in eapply (reads_slr o params x a); [cbn; tauto|exact A] end
      | match goal with |- reads _ _ ?n _ _ => apply (reads_mortality o params "oldest" "a"); cbn; tauto end
      | match goal with |- reads _ _ ?n _ _ => apply (reads_mortality o params "oldest" "b"); cbn; tauto end
      | match goal with |- reads _ _ ?n _ _ => apply (reads_mortality o params "oldest" "c"); cbn; tauto end
      | match goal with |- reads _ _ ?n _ _ => apply (reads_mortality o params "older" "a"); cbn; tauto end
      | match goal with |- reads _ _ ?n _ _ => apply (reads_mortality o params "older" "b"); cbn; tauto end
      | match goal with |- reads _ _ ?n _ _ => apply (reads_mortality o params "older" "c"); cbn; tauto end
      | match goal with |- reads _ _ ?n _ _ => apply (reads_mortality o params "young" "a"); cbn; tauto end
      | match goal with |- reads _ _ ?n _ _ => apply (reads_mortality o params "young" "b"); cbn; tauto end
      | match goal with |- reads _ _ ?n _ _ => apply (reads_mortality o params "young" "c"); cbn; tauto end ] ]|]).
  destruct I.
Qed.

Lemma plain_dict_parse o node pr x v : create_parser node = Ok pr -> has_type node "dict" -> entry node "can_be_false" = None ->
  parse o pr x = Ok v -> exists d, v = VDict d.
Proof.
  intros C T F H. destruct (create_parser_fields _ _ C) as [_ [Fc [_ _]]].
  assert (Ty : p_type pr = TDict).
  { apply (has_type_lookup _ _ _ C) in T; cbn in T; inversion T; auto. }
  destruct pr as [ty df cbf mn mx al un vp kp]. cbn [p_cbf] in Fc. cbn [p_type] in Ty.
  assert (cbf = false).
  { destruct cbf; [|reflexivity]. destruct (proj1 Fc eq_refl) as (x' & X & _). rewrite F in X. discriminate X. }
  subst cbf.
  subst ty. cbn in H. destruct x; try discriminate.
  - injection H as <-. eauto.
  - match type of H with bind ?e _ = _ => destruct e; [|discriminate] end. injection H as <-. eauto.
Qed.

Lemma custom_mapping_ok o user raw params tree : accepted o user raw params tree -> exists l, custom_mapping params = Ok l.
Proof.
  intros A. destruct (template_node ["simulation"; "custom_mapping"]) as [n|] eqn:T; [|vm_compute in T; discriminate T].
  pose proof (template_node_ok _ _ T) as P. destruct (accepted_param _ _ _ _ _ _ _ A P) as (pr & v & C & _ & L & H).
  assert (exists d, v = VDict d) as [d ->].
  { eapply plain_dict_parse; [exact C| | |exact H].
    - vm_compute in T. injection T as <-. reflexivity.
    - vm_compute in T. injection T as <-. reflexivity. }
  - destruct (final_dict _ _ _ _ _ _ _ A L) as (d' & L' & _). unfold custom_mapping.
    cbn [lookup] in L'. destruct params as [| | | | | |pd]; try discriminate. destruct (dget pd (KStr "simulation")) as [s|] eqn:S; [|discriminate].
    assert (SC : config (VDict pd) ["simulation"] = Ok s) by (apply config_lookup; cbn; rewrite S; reflexivity). rewrite SC. cbn [bind].
    destruct s as [| | | | | |sd]; try discriminate. destruct (dget sd (KStr "custom_mapping")) as [x|] eqn:X; [|discriminate].
    injection L' as ->. cbn. eauto.
Qed.

Lemma lookup_scalar o user raw params tree p : accepted o user raw params tree ->
  match template_node p with Some n => scalar_node n && negb (quantity_node n) | None => false end = true ->
  exists v, lookup params p = Some v /\ lookup raw p = Some v.
Proof.
  intros A H. destruct (template_node p) as [n|] eqn:T; [|discriminate]. apply Bool.andb_true_iff in H as [H1 H2]. apply Bool.negb_true_iff in H2.
  destruct (scalar_value_spec _ _ _ _ _ _ _ A (template_node_ok _ _ T) H1) as (v & L1 & L2 & _); [rewrite H2; discriminate|]. eauto.
Qed.

(** The columns needed are available: every column a chosen module reads has a value in every region (from the
    files or overrides). *)
Definition columns_available (o : oracles) mo (params : pyval) (st : store) (regions : list string) : Prop :=
  forall name cat col r, reads o params name cat col ->
    (In cat ["COACCH"; "mortality"] -> lookup params ["model"; "damage module"] = Some (VStr "COACCH")) ->
    In r regions -> exists v, getregional mo st cat col r = Ok v.
Definition combined_available (o : oracles) mo (params : pyval) (st : store) (regions : list string) : Prop :=
  combined params -> forall b a q r, In b ["b1"; "b2"] ->
    lookup params ["economics"; "damages"; "coacch_slr_withadapt"] = Some a ->
    lookup params ["economics"; "damages"; "quantile"] = Some q -> In r regions ->
    exists v, getregional mo st "COACCH" ("combined_" ++ b ++ "_" ++ adapt_label a ++ "-q" ++ show o q)%string r = Ok v.
(** The time series of the three data variables are defined at every model year. *)
Definition series_available (a : store_args) values (regions : list string) : Prop :=
  forall var t r, In var ["population"; "GDP"; "emissions"] -> In t (model_steps (a_start a) (a_end a) (a_dt a)) -> In r regions ->
    exists x, interp_data a values (year_at (a_start a) (a_dt a) t) r var = Ok x.

Lemma reads_cat o params name cat col : reads o params name cat col -> In cat ["COACCH"; "mortality"] ->
  exists d, In (name, d) coacch_params.
Proof.
  intros R I. destruct R as [|k K|x X|q Q|x a X A|a q A Q|age x G X]; try (cbn in I; destruct I as [I|[I|[]]]; discriminate I).
  - cbn [In] in X. destruct X as [<-|[<-|[<-|[<-|[]]]]]; eexists; cbn; tauto.
  - eexists; cbn; tauto.
  - cbn [In] in X. destruct X as [<-|[<-|[<-|[<-|[]]]]]; eexists; cbn; tauto.
  - eexists; cbn; tauto.
  - cbn [In] in G, X. destruct G as [<-|[<-|[<-|[]]]]; destruct X as [<-|[<-|[<-|[]]]]; eexists; cbn; tauto.
Qed.
Lemma in_coacch_unique name d d' : In (name, d) coacch_params -> In (name, d') all_decls -> In (name, d') coacch_params.
Proof.
  intros I J. assert (K : In (name, d) all_decls).
  { unfold all_decls. rewrite !in_app_iff. tauto. }
  pose proof all_decls_nodup as N. apply (assoc_nodup _ _ _ N) in J. apply (assoc_nodup _ _ _ N) in K. congruence.
Qed.
Lemma all_decls_texts : forallb (fun nd => match snd nd with Text s =>
     if str_startswith s "timeandregional::" then match after_colons s with Ok r => existsb (String.eqb r) ["population"; "GDP"; "emissions"] | Err _ => false end else true
   | Computed _ => true end) all_decls = true.
Proof. vm_compute. reflexivity. Qed.

Theorem construct_succeeds o disk mo uf sp c user raw params tree rs st a values :
  accepted o user raw params tree -> plain_quantities raw -> plain_columns o params ->
  (exists d, lookup params ["regions"] = Some d /\ items d = Ok rs) ->
  param_store disk params = Ok st -> store_args_of params (map fst rs) = Ok a ->
  snd (data_store disk uf sp a c) = Ok values ->
  columns_available o mo params st (map fst rs) -> combined_available o mo params st (map fst rs) ->
  series_available a values (map fst rs) ->
  exists inst, construct o disk mo uf sp c user = Ok inst /\ i_params inst = params /\ i_tree inst = tree /\ i_regions inst = map fst rs /\
    i_args inst = a /\ i_store inst = st /\ i_series inst = values.
Proof.
  intros A PQ PC (rd & RL & RI) PS SA DS CA CB SV.
  destruct (choices_exist _ _ _ _ _ A) as (ch & decls & CH & MP & NC & DM).
  destruct (lookup_scalar _ _ _ _ _ ["economics"; "damages"; "coacch_slr_withadapt"] A ltac:(vm_compute; reflexivity)) as (wa & WA & _).
  destruct (lookup_scalar _ _ _ _ _ ["economics"; "MAC"; "regional calibration factor"] A ltac:(vm_compute; reflexivity)) as (kf & KF & _).
  destruct (lookup_scalar _ _ _ _ _ ["economics"; "damages"; "quantile"] A ltac:(vm_compute; reflexivity)) as (qu & QU & _).
  destruct (lookup_scalar _ _ _ _ _ ["economics"; "damages"; "coacch_combined_slr_nonslr_damages"] A ltac:(vm_compute; reflexivity)) as (cb & CBL & _).
  destruct (lookup_scalar _ _ _ _ _ ["time"; "start"] A ltac:(vm_compute; reflexivity)) as (start & ST & _).
  destruct (lookup_scalar _ _ _ _ _ ["time"; "dt"] A ltac:(vm_compute; reflexivity)) as (dt & DT & _).
  assert (IM : exists m, instance_main o tree params (fun cat name => RegionalParams.get mo st cat name (map fst rs))
                 (fun y r v => interp_data a values y r v) (a_start a) (a_dt a) (num_years (a_start a) (a_end a) (a_dt a)) (map fst rs) decls start dt = Ok m).
  { unfold instance_main.
    match goal with |- context [fold_result ?f ?dd []] => assert (FA : exists m, fold_result f dd [] = Ok m) end;
      [|destruct FA as [m ->]; cbn [bind]; destruct (custom_mapping_ok _ _ _ _ _ A) as [l ->]; cbn [bind]; eauto].
    apply assign_succeeds; intros name d I; pose proof (model_params_sub _ _ _ MP I) as IA;
      destruct (decl_cases o params _ _ _ WA KF QU name d IA) as [(cat & col & RD)|(s & -> & NR)].
    - pose proof (reads_doc _ _ _ _ _ _ RD IA) as DTX; exists ("regional::" ++ cat ++ "." ++ col)%string.
      destruct (show_no_colon _ _ _ _ _ RD PC) as [N1 N2].
      destruct (get_ok mo st cat col (map fst rs)) as [l L].
      { intros r Hr. apply (CA name cat col r RD); auto. intros HC. destruct (reads_cat _ _ _ _ _ RD HC) as [d' D'].
        destruct DM as [DM|DM]; [exact DM|]. exfalso. apply (NC ltac:(rewrite DM; discriminate) (name, d) I). eapply in_coacch_unique; eauto. }
      exists (Some (ByRegion l)). split; [exact DTX|]. unfold value_for.
      assert (P1 : str_startswith ("regional::" ++ cat ++ "." ++ col) "::" = false) by (cbn; reflexivity).
      rewrite P1, starts_with, after_regional by exact N1. cbn [bind]. rewrite split_once_dot by exact N2. cbn [bind fst snd]. rewrite L. reflexivity.
    - exists s. unfold doc_text. unfold value_for. rewrite NR. destruct (str_startswith s "::") eqn:P1.
      + assert (exists rest, s = ("::" ++ rest)%string) as [rest ->].
        { pose proof (decl_check _ _ _ MP I) as K; unfold check_decl in K; cbn [snd] in K; rewrite P1 in K.
          destruct (after_colons s) as [r|]; [|discriminate]; apply Bool.andb_true_iff in K as [K _]; apply String.eqb_eq in K; eauto. }
        destruct (scalar_decl _ _ _ _ MP I) as (AC & node & TN & SN). pose proof (template_node_ok _ _ TN) as PA.
        destruct (scalar_value_spec _ _ _ _ _ _ _ A PA SN) as (v & _ & _ & V1 & V2 & V3).
        { intros Q v Hv; apply (PQ _ _ _ PA); auto; unfold has_type; unfold quantity_node in Q;
          destruct (entry node "type") as [[]|]; try discriminate; apply String.eqb_eq in Q; subst; reflexivity. }
        rewrite AC; cbn [bind].
        assert (exists w, scalar_value o tree params (str_split rest ".") = Ok w) as [w ->].
        { destruct (quantity_node node) eqn:Q; [|eexists; apply V1; reflexivity].
          destruct v as [|[]| | | | |]; try (eexists; apply V2; reflexivity);
          (destruct (V3 eq_refl) as (? & q & _ & _ & ->); [discriminate|eauto]). }
        eexists; split; [reflexivity|]; cbn; reflexivity.
      + destruct (str_startswith s "timeandregional::") eqn:P2; [|eexists; split; reflexivity].
        pose proof all_decls_texts as K; rewrite forallb_forall in K; specialize (K _ IA); cbn [snd] in K; rewrite P2 in K.
        destruct (after_colons s) as [var|]; [|discriminate]; apply existsb_exists in K as (var' & K1 & K2); apply String.eqb_eq in K2; subst var'.
        cbn [bind]; unfold time_regional.
        match goal with |- context [map_result ?f ?l] => destruct (map_result_ok f l) as [l' ->] end.
        { intros [t r] TR; apply in_prod_iff in TR as [TR1 TR2]; cbn [fst snd]; destruct (SV var t r K1 TR1 TR2) as [x ->]; cbn; eauto. }
        eexists; split; reflexivity. }
  assert (ID : exists data, instance_data o tree params (fun cat name => RegionalParams.get mo st cat name (map fst rs))
                 (fun y r v => interp_data a values y r v) (a_start a) (a_dt a) (num_years (a_start a) (a_end a) (a_dt a)) (map fst rs) decls start dt = Ok data).
  { unfold instance_data. destruct IM as [m IM]. destruct DM as [DM'|DM']; pose proof DM' as DMC; apply config_lookup in DMC; rewrite DMC; cbn [bind].
    - rewrite IM. cbn [bind]. replace (py_eqb (VStr "COACCH") (VStr "COACCH")) with true by reflexivity.
      unfold instance_coacch. pose proof QU as QU'. pose proof CBL as CBL'. pose proof WA as WA'. apply config_lookup in QU', CBL', WA'.
      rewrite QU'. cbn [bind]. rewrite CBL'. cbn [bind]. rewrite WA'. cbn [bind].
      destruct (py_truth cb) eqn:TC; [|cbn; eauto].
      assert (CMB : combined params) by (split; [exact DM'|eauto]).
      destruct (get_ok mo st "COACCH" ("combined_" ++ "b1" ++ "_" ++ adapt_label wa ++ "-q" ++ show o qu)%string (map fst rs)) as [l1 L1].
      { intros r Hr. apply (CB CMB "b1" wa qu r); auto. cbn; auto. }
      destruct (get_ok mo st "COACCH" ("combined_" ++ "b2" ++ "_" ++ adapt_label wa ++ "-q" ++ show o qu)%string (map fst rs)) as [l2 L2].
      { intros r Hr. apply (CB CMB "b2" wa qu r); auto. cbn; auto. }
      unfold adapt_label in L1, L2. rewrite L1. cbn [bind]. rewrite L2. cbn [bind]. eauto.
    - rewrite IM. cbn [bind]. cbn. eauto. }
  destruct ID as [data ID].
  unfold construct. destruct A as (_ & C1 & C2). rewrite C1. cbn [bind fst snd]. rewrite C2. cbn [bind].
  apply config_lookup in RL. rewrite RL. cbn [bind]. rewrite RI. cbn [bind]. rewrite CH. cbn [bind]. rewrite MP. cbn [bind].
  rewrite PS. cbn [bind]. rewrite SA. cbn [bind]. rewrite DS. cbn [bind]. apply config_lookup in ST, DT. rewrite ST. cbn [bind]. rewrite DT. cbn [bind].
  rewrite ID. cbn [bind]. eexists. split; [reflexivity|]. cbn. auto 10.
Qed.
