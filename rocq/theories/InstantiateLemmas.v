(** C10: from a user's dictionary to the values of the model parameters. *)
From Verif Require Import PyBase NestedDict NestedDictFacts Parsers Config ConfigDefault ConfigFacts ConfigSpec ConfigBridge ConfigLemmas
  TimeGrid DataStore DataStoreLemmas RegionalParams Instantiate InstFacts.
From Coq Require Import Lia Lra.
Import ListNotations.
Open Scope string_scope.
Open Scope list_scope.

(** *** Specification *)
(** The value pyomo gets for a template parameter [node] whose final configuration value is [v]: quantities
    are converted to the template's unit (False stays False), everything else is passed as is. *)
Definition handed_over (o : oracles) (node v w : pyval) : Prop :=
  (has_type node "quantity" /\ v = VBool false /\ w = VBool false) \/
  (has_type node "quantity" /\ v <> VBool false /\ exists u q, entry node "unit" = Some (VStr u) /\
     o_pint o (custom_replace (py_str (o_repr o) v)) (parse_default_units (custom_replace u)) = Ok q /\ w = VFloat (FFin q)) \/
  (~ has_type node "quantity" /\ w = v).
(** The user's own parameter values (simulation - custom_mapping). *)
Definition customised (params : pyval) (name : string) : Prop :=
  exists v, lookup params ["simulation"; "custom_mapping"; name] = Some v.
(** Quantities written without "{...}" references. *)
Definition plain_quantities (raw : pyval) : Prop :=
  forall p node v, param_at config_default p node -> has_type node "quantity" -> lookup raw p = Some v ->
    is_dict v = false /\ forall s, v = VStr s -> no_brace s.

(** *** Dictionaries *)
Lemma assoc_put_same {A} k (v : A) l : assoc k (put k v l) = Ok v.
Proof.
  unfold assoc. induction l as [|[k' v'] l IH]; cbn; [rewrite String.eqb_refl; reflexivity|].
  destruct (String.eqb k' k) eqn:E; cbn; [rewrite String.eqb_refl; reflexivity|]. rewrite E. exact IH.
Qed.
Lemma assoc_put_other {A} k k' (v : A) l : k <> k' -> assoc k' (put k v l) = assoc k' l.
Proof.
  intros N. apply String.eqb_neq in N. unfold assoc. induction l as [|[k0 v0] l IH]; cbn; [rewrite N; reflexivity|].
  destruct (String.eqb k0 k) eqn:E; cbn.
  - apply String.eqb_eq in E. subst k0. rewrite N. reflexivity.
  - destruct (String.eqb k0 k'); [reflexivity|exact IH].
Qed.
Lemma assoc_update_other {A} k (new l : list (string * A)) : ~ In k (map fst new) -> assoc k (update new l) = assoc k l.
Proof.
  unfold update. revert l. induction new as [|[k' v'] new IH]; intros l H; cbn; [reflexivity|]. cbn in H.
  rewrite IH; [apply assoc_put_other; intros ->; apply H; auto|tauto].
Qed.
Lemma assoc_update_in {A} k v (new l : list (string * A)) : NoDup (map fst new) -> In (k, v) new -> assoc k (update new l) = Ok v.
Proof.
  unfold update. revert l. induction new as [|[k' v'] new IH]; intros l ND H; [destruct H|]. cbn in ND |- *. apply NoDup_cons_iff in ND as [N ND].
  destruct H as [H|H].
  - injection H as -> ->. fold (update new (put k v l)). rewrite assoc_update_other; [apply assoc_put_same|exact N].
  - apply IH; assumption.
Qed.

(** *** One parameter *)
Section Assign.
  Variables (o : oracles) (tree : ptree) (params : pyval).
  Variable regional : string -> string -> result (list (string * pyval)).
  Variable series : R -> string -> string -> result R.
  Variables (t_start t_dt : R) (n_years : Z) (region_names : list string).
  Let assign := assign o tree params regional series t_start t_dt n_years region_names.
  Definition doc_text (d : doc) : result string := match d with Text s => Ok s | Computed f => f o params end.
  Definition value_for (d : string) : result (option pdata) :=
    if str_startswith d "::" then do s <- after_colons d; do v <- scalar_value o tree params (str_split s "."); Ok (Some (Scalar v))
    else if str_startswith d "regional::" then
      do s <- after_colons d; do cn <- split_once s; do v <- regional (fst cn) (snd cn); Ok (Some (ByRegion v))
    else if str_startswith d "timeandregional::" then
      do s <- after_colons d; do v <- time_regional series t_start t_dt n_years region_names s; Ok (Some (ByTimeAndRegion v))
    else Ok None.
  Lemma prefixes_exclusive d :
    (str_startswith d "::" = true -> str_startswith d "regional::" = false /\ str_startswith d "timeandregional::" = false) /\
    (str_startswith d "regional::" = true -> str_startswith d "timeandregional::" = false).
  Proof.
    unfold str_startswith. destruct d as [|c d]; [split; intros H; discriminate H|]. cbn [prefix]. split.
    - destruct (ascii_dec ":" c) as [<-|]; [intros _|discriminate].
      destruct (ascii_dec "r" ":") as [E|_]; [discriminate E|]. destruct (ascii_dec "t" ":") as [E|_]; [discriminate E|]. auto.
    - destruct (ascii_dec "r" c) as [<-|]; [intros _|discriminate]. destruct (ascii_dec "t" "r") as [E|_]; [discriminate E|]. reflexivity.
  Qed.
  Lemma assign_eq m decl : assign m decl =
    (do d <- doc_text (snd decl); do v <- value_for d; Ok (match v with Some x => put (fst decl) x m | None => m end)).
  Proof.
    unfold assign, Instantiate.assign, value_for. fold (doc_text (snd decl)). destruct (doc_text (snd decl)) as [d|e]; [|reflexivity]. cbn [bind].
    destruct (prefixes_exclusive d) as [P1 P2].
    destruct (str_startswith d "::") eqn:E1.
    - destruct (P1 eq_refl) as [-> ->]. destruct (after_colons d) as [s|e]; [|reflexivity]. cbn [bind].
      destruct (scalar_value o tree params (str_split s ".")); reflexivity.
    - cbn [bind]. destruct (str_startswith d "regional::") eqn:E2.
      + rewrite (P2 eq_refl). destruct (after_colons d) as [s|e]; [|reflexivity]. cbn [bind]. destruct (split_once s) as [cn|e]; [|reflexivity]. cbn [bind].
        destruct (regional (fst cn) (snd cn)); reflexivity.
      + cbn [bind]. destruct (str_startswith d "timeandregional::"); [|reflexivity]. destruct (after_colons d) as [s|e]; [|reflexivity]. cbn [bind].
        destruct (time_regional _ _ _ _ _ s); reflexivity.
  Qed.
  Lemma assign_all decls : forall m m', NoDup (map fst decls) -> fold_result assign decls m = Ok m' ->
    (forall k, ~ In k (map fst decls) -> assoc k m' = assoc k m) /\
    (forall name d, In (name, d) decls -> exists s v, doc_text d = Ok s /\ value_for s = Ok v /\
       match v with Some x => assoc name m' = Ok x | None => assoc name m' = assoc name m end).
  Proof.
    induction decls as [|[n0 d0] decls IH]; intros m m' ND H; cbn [fold_result] in H.
    { injection H as <-. split; [reflexivity|intros ? ? []]. }
    apply bind_ok in H as (m1 & H1 & H2). cbn [map fst] in ND. apply NoDup_cons_iff in ND as [N ND].
    rewrite assign_eq in H1. cbn [fst snd] in H1. apply bind_ok in H1 as (s & D & H1). apply bind_ok in H1 as (v & V & H1). injection H1 as <-.
    destruct (IH _ _ ND H2) as [A B]. split.
    - intros k K. cbn [map fst] in K. rewrite A by (intros I; apply K; right; exact I). destruct v; [|reflexivity]. apply assoc_put_other. intros ->. apply K. left. reflexivity.
    - intros name d [I|I].
      + injection I as <- <-. exists s, v. split; [exact D|]. split; [exact V|]. rewrite (A n0 N). destruct v; [apply assoc_put_same|reflexivity].
      + destruct (B _ _ I) as (s' & v' & D' & V' & W). exists s', v'. split; [exact D'|]. split; [exact V'|]. destruct v'; [exact W|]. rewrite W.
        assert (name <> n0) by (intros ->; apply N; apply in_map_iff; exists (n0, d); auto). destruct v; [apply assoc_put_other; congruence|reflexivity].
  Qed.
  Lemma assign_succeeds decls : (forall name d, In (name, d) decls -> exists s v, doc_text d = Ok s /\ value_for s = Ok v) ->
    forall m, exists m', fold_result assign decls m = Ok m'.
  Proof.
    intros H. induction decls as [|[n0 d0] decls IH]; intros m; [eexists; reflexivity|]. cbn [fold_result]. rewrite assign_eq. cbn [fst snd].
    destruct (H n0 d0 (or_introl eq_refl)) as (s & v & D & V). rewrite D. cbn [bind]. rewrite V. cbn [bind]. apply IH. intros; eapply H; right; eauto.
  Qed.
End Assign.

(** *** The declared parameters *)
Definition all_decls : list (string * doc) :=
  base_params ++ emissions_params ++ slr_params ++ coacch_params ++ mitigation_params ++ notrade_params ++ globalcostpool_params ++
  notransfer_params ++ effort_params ++ cobbdouglas_params ++ inequal_params ++ objective_params.
Lemma chosen_in {A} v (l : list (string * A)) a : chosen v l = Ok a -> exists s, v = VStr s /\ In (s, a) l.
Proof.
  unfold chosen. destruct v; try discriminate. destruct (find _ l) as [[s' a']|] eqn:F; [|discriminate]. intros H. injection H as <-.
  apply find_some in F as [F1 F2]. cbn in F2. apply String.eqb_eq in F2. subst. eauto.
Qed.
Lemma Ok_inj {A} (a b : A) : Ok a = Ok b -> b = a.
Proof. congruence. Qed.
Ltac choose_modules H dm tr tf we ob D T F W O := unfold model_params in H;
  apply bind_ok in H as (dm & D & H); apply bind_ok in H as (tr & T & H); apply bind_ok in H as (tf & F & H);
  apply bind_ok in H as (we & W & H); apply bind_ok in H as (ob & O & H); apply Ok_inj in H; subst;
  apply chosen_in in D as (? & _ & D); apply chosen_in in T as (? & _ & T); apply chosen_in in F as (? & _ & F);
  apply chosen_in in W as (? & _ & W); apply chosen_in in O as (? & _ & O).
Lemma model_params_sub c decls d : model_params c = Ok decls -> In d decls -> In d all_decls.
Proof.
  intros H I. choose_modules H dm tr tf we ob D T F W OB. unfold all_decls. rewrite !in_app_iff in I. rewrite !in_app_iff.
  assert (In d dm -> In d coacch_params) by (destruct D as [E|[E|[]]]; injection E as _ <-; auto; intros []).
  assert (In d tr -> In d notrade_params \/ In d globalcostpool_params) by (destruct T as [E|[E|[E|[]]]]; injection E as _ <-; auto; intros []).
  assert (In d tf -> In d notransfer_params) by (destruct F as [E|[E|[]]]; injection E as _ <-; auto; intros []).
  assert (In d we -> In d inequal_params).
  { destruct W as [E|[E|[E|[]]]]; injection E as _ <-; auto; unfold elasmu_params, inequal_params; cbn; tauto. }
  assert (In d ob -> In d objective_params) by (destruct OB as [E|[E|[]]]; injection E as _ <-; auto).
  tauto.
Qed.
Fixpoint nodup_str (l : list string) : bool := match l with [] => true | x :: r => negb (existsb (String.eqb x) r) && nodup_str r end.
Lemma nodup_str_ok l : nodup_str l = true -> NoDup l.
Proof.
  induction l as [|x l IH]; cbn; [constructor|]. intros H. apply Bool.andb_true_iff in H as [H1 H2]. constructor; [|auto].
  intros I. apply Bool.negb_true_iff in H1. rewrite <- Bool.not_true_iff_false in H1. apply H1, existsb_exists. exists x. split; [exact I|apply String.eqb_refl].
Qed.
Lemma model_params_nodup c decls : model_params c = Ok decls -> NoDup (map fst decls).
Proof.
  intros H. choose_modules H dm tr tf we ob D T F W OB. apply nodup_str_ok.
  destruct D as [E|[E|[]]]; injection E as _ <-; destruct T as [E|[E|[E|[]]]]; injection E as _ <-; destruct F as [E|[E|[]]]; injection E as _ <-;
  destruct W as [E|[E|[E|[]]]]; injection E as _ <-; destruct OB as [E|[E|[]]]; injection E as _ <-; vm_compute; reflexivity.
Qed.

Definition check_decl (nd : string * doc) : bool :=
  match snd nd with
  | Text s =>
      if str_startswith s "::" then
        match after_colons s with
        | Ok r => String.eqb ("::" ++ r) s && match template_node (str_split r ".") with Some n => scalar_node n | None => false end
        | Err _ => false
        end
      else if str_startswith s "regional::" then
        match after_colons s with Ok r => String.eqb ("regional::" ++ r) s && match split_once r with Ok cn => String.eqb (fst cn ++ "." ++ snd cn) r | Err _ => false end
                                 | Err _ => false end
      else if str_startswith s "timeandregional::" then
        match after_colons s with Ok r => String.eqb ("timeandregional::" ++ r) s && existsb (String.eqb r) ["population"; "GDP"; "emissions"] | Err _ => false end
      else String.eqb s "None"
  | Computed _ => true
  end.
Lemma decls_checked : forallb check_decl all_decls = true.
Proof. vm_compute. reflexivity. Qed.
Lemma decl_check c decls nd : model_params c = Ok decls -> In nd decls -> check_decl nd = true.
Proof. intros M I. pose proof decls_checked as K. rewrite forallb_forall in K. apply K. eapply model_params_sub; eauto. Qed.
Lemma prefix_app pre s : String.prefix pre (pre ++ s)%string = true.
Proof. induction pre as [|c pre IH]; [destruct s; reflexivity|]. cbn. destruct (ascii_dec c c); [exact IH|congruence]. Qed.
Lemma starts_with pre s : str_startswith (pre ++ s) pre = true.
Proof. apply prefix_app. Qed.
Lemma append_inj pre a b : (pre ++ a = pre ++ b)%string -> a = b.
Proof. induction pre as [|c pre IH]; cbn; [auto|]. intros H. injection H as H. auto. Qed.
Lemma scalar_decl c decls name rest : model_params c = Ok decls -> In (name, Text ("::" ++ rest)%string) decls ->
  after_colons ("::" ++ rest) = Ok rest /\ exists node, template_node (str_split rest ".") = Some node /\ scalar_node node = true.
Proof.
  intros M I. pose proof (decl_check _ _ _ M I) as K. unfold check_decl in K. cbn [snd] in K. rewrite starts_with in K.
  destruct (after_colons ("::" ++ rest)) as [r|e]; [|discriminate]. apply Bool.andb_true_iff in K as [K1 K2]. apply String.eqb_eq in K1.
  apply append_inj in K1. subst r. split; [reflexivity|]. destruct (template_node _) as [n|]; [|discriminate]. eauto.
Qed.

(** Whatever modules are chosen, the "::" path of every model parameter is the path of a configuration parameter
    (a number, boolean, choice or quantity). *)
Lemma C10_every_path_declared_pf : forall c decls name rest, model_params c = Ok decls -> In (name, Text ("::" ++ rest)%string) decls ->
  exists node, param_at config_default (str_split rest ".") node /\
    (has_type node "float" \/ has_type node "int" \/ has_type node "bool" \/ has_type node "enum" \/ has_type node "quantity").
Proof.
  intros c decls name rest M I. destruct (scalar_decl _ _ _ _ M I) as (_ & node & T & S). exists node. split; [apply template_node_ok, T|].
  unfold scalar_node in S. unfold has_type. destruct (entry node "type") as [[]|]; try discriminate. destruct (String.eqb s "enum") eqn:E.
  - apply String.eqb_eq in E. subst. tauto.
  - apply existsb_exists in S as (t & S1 & S2). apply String.eqb_eq in S2. subst t. cbn [In] in S1.
    destruct S1 as [<-|[<-|[<-|[<-|[]]]]]; tauto.
Qed.

Lemma eqb_vstr v s : py_eqb v (VStr s) = true -> v = VStr s.
Proof.
  destruct v as [|b|z|f|s'|l|d]; cbn; try discriminate; try (intros H; apply String.eqb_eq in H; congruence).
  destruct b; discriminate.
Qed.
Section Construct.
  Variables (o : oracles) (disk : string -> result table) (mo : list (pyval * list pyval) -> list (pyval * list pyval))
    (uf : string -> string -> result R) (sp : list R -> list R -> result (R -> R)).
  Let store_get st regions := fun cat name => RegionalParams.get mo st cat name regions.
  Let series_get a values := fun y r v => interp_data a values y r v.

  Lemma construct_inv c user inst : construct o disk mo uf sp c user = Ok inst ->
    exists raw rs ch decls start dt,
      check_params o config_default user = Ok (raw, i_tree inst) /\ parse_param_values raw = Ok (i_params inst) /\
      lookup (i_params inst) ["regions"] = Some rs /\ (exists l, items rs = Ok l /\ i_regions inst = map fst l) /\
      choices_of (i_params inst) = Ok ch /\ model_params ch = Ok decls /\
      param_store disk (i_params inst) = Ok (i_store inst) /\
      store_args_of (i_params inst) (i_regions inst) = Ok (i_args inst) /\
      snd (data_store disk uf sp (i_args inst) c) = Ok (i_series inst) /\
      lookup (i_params inst) ["time"; "start"] = Some start /\ lookup (i_params inst) ["time"; "dt"] = Some dt /\
      instance_data o (i_tree inst) (i_params inst) (store_get (i_store inst) (i_regions inst)) (series_get (i_args inst) (i_series inst))
        (a_start (i_args inst)) (a_dt (i_args inst)) (num_years (a_start (i_args inst)) (a_end (i_args inst)) (a_dt (i_args inst)))
        (i_regions inst) decls start dt = Ok (i_data inst).
  Proof.
    intros H. unfold construct in H. apply bind_ok in H as ([raw tree] & H1 & H). cbn [fst snd] in H.
    apply bind_ok in H as (params & H2 & H). apply bind_ok in H as (rs & H3 & H). apply bind_ok in H as (l & H4 & H).
    apply bind_ok in H as (ch & H5 & H). apply bind_ok in H as (decls & H6 & H). apply bind_ok in H as (st & H7 & H).
    apply bind_ok in H as (a & H8 & H). apply bind_ok in H as (values & H9 & H). apply bind_ok in H as (start & H10 & H).
    apply bind_ok in H as (dt & H11 & H). apply bind_ok in H as (data & H12 & H). apply Ok_inj in H. subst inst.
    cbn [i_params i_tree i_regions i_args i_store i_series i_data]. apply config_lookup in H3, H10, H11.
    exists raw, rs, ch, decls, start, dt. repeat (split; [assumption|]). split; [eauto|]. repeat (split; [assumption|]). exact H12.
  Qed.

  (** What the data of an instance consist of *)
  Definition manual_names := ["beginyear"; "dt"; "tf"; "t"; "year2100"; "regions"].
  Definition combined_names := ["damage_noslr_form"; "damage_noslr_b1"; "damage_noslr_b2"; "damage_noslr_b3"; "damage_noslr_a";
    "damage_slr_form"; "damage_slr_b1"; "damage_slr_b2"; "damage_slr_b3"; "damage_slr_a"].
  Definition combined (params : pyval) : Prop :=
    lookup params ["model"; "damage module"] = Some (VStr "COACCH") /\
    exists v, lookup params ["economics"; "damages"; "coacch_combined_slr_nonslr_damages"] = Some v /\ py_truth v = true.

  Lemma dget_some {A} (d : list (key * A)) k v : In (k, v) d -> exists w, dget d k = Some w.
  Proof.
    induction d as [|[k' v'] d IH]; [intros []|]. cbn. intros [H|H].
    - injection H as -> ->. assert (key_eqb k k = true) as -> by (destruct k; cbn; [apply String.eqb_refl|apply Z.eqb_refl]). eauto.
    - destruct (key_eqb k' k); [eauto|apply IH, H].
  Qed.
  Lemma custom_names params l : custom_mapping params = Ok l -> forall k, In k (map fst l) -> customised params k.
  Proof.
    unfold custom_mapping, customised. intros H k K. apply bind_ok in H as (s & S & H). apply config_lookup in S. destruct s as [| | | | | |d]; try discriminate.
    cbn [lookup] in S |- *. destruct params as [| | | | | |pd]; try discriminate. destruct (dget pd (KStr "simulation")) as [x|]; [|discriminate]. injection S as ->.
    destruct (dget d (KStr "custom_mapping")) as [[| | | | | |c]|]; try discriminate; injection H as <-; [|destruct K].
    apply in_map_iff in K as ([k' v] & K1 & K2). cbn in K1. subst k'. apply in_flat_map in K2 as ([kk x] & I & K2). cbn [fst snd] in K2.
    destruct kk as [s|z]; [|destruct K2]. destruct K2 as [K2|[]]. injection K2 as -> _. destruct (dget_some _ _ _ I) as [w W]. rewrite W. eauto.
  Qed.

  Lemma instance_data_inv tree params regional series ts td n rs decls start dt data :
    instance_data o tree params regional series ts td n rs decls start dt = Ok data ->
    exists m0 cm, fold_result (assign o tree params regional series ts td n rs) decls [] = Ok m0 /\ custom_mapping params = Ok cm /\
      (forall k, ~ customised params k -> (combined params -> ~ In k combined_names) ->
         assoc k data = assoc k (update (manual ts td n rs start dt) m0)) /\
      (combined params -> exists c, instance_coacch o params regional rs = Ok c /\ map fst c = combined_names /\ forall k v, In (k, v) c -> assoc k data = Ok v).
  Proof.
    intros H. unfold instance_data in H. apply bind_ok in H as (dm & D & H). apply bind_ok in H as (m & M & H).
    unfold instance_main in M. apply bind_ok in M as (m0 & M0 & M). apply bind_ok in M as (cm & CM & M). apply Ok_inj in M. subst m.
    exists m0, cm. split; [exact M0|]. split; [exact CM|]. apply config_lookup in D.
    assert (CU : forall k, ~ customised params k -> ~ In k (map fst cm)) by (intros k K I; apply K; eapply custom_names; eauto).
    assert (NC : forall c, instance_coacch o params regional rs = Ok c ->
      (map fst c = combined_names /\ exists v, lookup params ["economics"; "damages"; "coacch_combined_slr_nonslr_damages"] = Some v /\ py_truth v = true) \/
      (c = [] /\ exists v, lookup params ["economics"; "damages"; "coacch_combined_slr_nonslr_damages"] = Some v /\ py_truth v = false)).
    { intros c C. unfold instance_coacch in C. apply bind_ok in C as (q & _ & C). apply bind_ok in C as (comb & CB & C). apply bind_ok in C as (ad & _ & C).
      apply config_lookup in CB. destruct (py_truth comb) eqn:T.
      - apply bind_ok in C as (b1 & _ & C). apply bind_ok in C as (b2 & _ & C). apply Ok_inj in C. subst c. left. split; [reflexivity|eauto].
      - injection C as <-. right. eauto. }
    destruct (py_eqb dm (VStr "COACCH")) eqn:E.
    - assert (dm = VStr "COACCH") by (apply eqb_vstr, E). subst dm.
      apply bind_ok in H as (c & C & H). apply Ok_inj in H. subst data. split.
      + intros k K1 K2. destruct (NC c C) as [(N & v & V1 & V2)|(-> & _)].
        * rewrite assoc_update_other; [apply assoc_update_other, CU, K1|]. rewrite N. apply K2. split; [exact D|eauto].
        * cbn. apply assoc_update_other, CU, K1.
      + intros (_ & v & V1 & V2). exists c. split; [exact C|]. destruct (NC c C) as [(N & _)|(-> & w & W1 & W2)]; [|congruence].
        split; [exact N|]. intros k x I. apply assoc_update_in; [|exact I]. rewrite N. apply nodup_str_ok. reflexivity.
    - apply Ok_inj in H. subst data. split.
      + intros k K1 _. apply assoc_update_other, CU, K1.
      + intros (D' & _). rewrite D' in D. injection D as <-. discriminate E.
  Qed.

  Definition plain_name (nd : string * doc) : bool :=
    match snd nd with
    | Text s => negb (str_startswith s "::" || str_startswith s "timeandregional::") || negb (existsb (String.eqb (fst nd)) (manual_names ++ combined_names))
    | Computed _ => true end && negb (existsb (String.eqb (fst nd)) manual_names && match snd nd with Text s => negb (String.eqb s "None") | _ => true end).
  Lemma plain_names : forallb plain_name all_decls = true.
  Proof. vm_compute. reflexivity. Qed.
  Lemma not_named k l : existsb (String.eqb k) l = false -> ~ In k l.
  Proof. intros H I. rewrite <- Bool.not_true_iff_false in H. apply H, existsb_exists. exists k. split; [exact I|apply String.eqb_refl]. Qed.

  (** Every "::" parameter of an instance holds the value of its configuration parameter, converted to the
      template's unit if it is a quantity; custom_mapping entries excepted. *)
  Lemma scalar_values : forall c user inst, distinct_keys user -> construct o disk mo uf sp c user = Ok inst ->
    forall ch decls name rest, choices_of (i_params inst) = Ok ch -> model_params ch = Ok decls ->
    In (name, Text ("::" ++ rest)%string) decls -> ~ customised (i_params inst) name ->
    exists node v w, param_at config_default (str_split rest ".") node /\ lookup (i_params inst) (str_split rest ".") = Some v /\
      handed_over o node v w /\ assoc name (i_data inst) = Ok (Scalar w).
  Proof.
    intros c user inst DU H ch decls name rest CH MP I NC.
    destruct (construct_inv _ _ _ H) as (raw & rs & ch' & decls' & start & dt & H1 & H2 & H3 & _ & H5 & H6 & _ & _ & _ & _ & _ & H12).
    assert (ch' = ch) by congruence. subst ch'. assert (decls' = decls) by congruence. subst decls'.
    destruct (scalar_decl _ _ _ _ MP I) as (AC & node & TN & SN). pose proof (template_node_ok _ _ TN) as PA.
    destruct (instance_data_inv _ _ _ _ _ _ _ _ _ _ _ _ H12) as (m0 & cm & M0 & CM & A & _).
    destruct (assign_all _ _ _ _ _ _ _ _ _ _ _ _ (model_params_nodup _ _ MP) M0) as [_ B].
    destruct (B _ _ I) as (s & v & D & V & W). unfold doc_text in D. apply Ok_inj in D. subst s. unfold value_for in V. rewrite starts_with in V.
    rewrite AC in V. cbn [bind] in V. apply bind_ok in V as (w & V & E). injection E as <-.
    assert (ACC : accepted o user raw (i_params inst) (i_tree inst)) by (split; [exact DU|auto]).
    destruct (accepted_param _ _ _ _ _ _ _ ACC PA) as (pr & v0 & C & T & L & PP).
    unfold scalar_value in V. apply bind_ok in V as (v & V1 & V). apply config_lookup in V1. change (map KStr (str_split rest ".")) with (keys_of (str_split rest ".")) in V.
    rewrite T in V. cbn [bind] in V. exists node, v, w. split; [exact PA|]. split; [exact V1|]. split.
    - destruct (quantity_node node) eqn:Q.
      + destruct (quantity_parser _ _ C Q) as [PT U]. rewrite PT in V. apply bind_ok in V as (q & V & E). injection E as <-.
        assert (HQ : has_type node "quantity") by (unfold quantity_node in Q; unfold has_type; destruct (entry node "type") as [[]|]; try discriminate Q; apply String.eqb_eq in Q; congruence).
        unfold quant in V. cbn [andb] in V. destruct (match v with VBool false => true | _ => false end) eqn:F.
        * injection V as <-. left. split; [exact HQ|]. destruct v as [|[]| | | | |]; try discriminate F. auto.
        * right. left. split; [exact HQ|]. split; [intros ->; discriminate F|]. rewrite U. destruct (p_unit pr); try discriminate V.
          apply bind_ok in V as (x & V & E). injection E as <-. exists s, x. auto.
      + right. right. split.
        * intros HQ. unfold has_type in HQ. unfold quantity_node in Q. rewrite HQ in Q. discriminate Q.
        * destruct (scalar_parse _ _ _ _ _ C SN Q PP) as [NQ _]. destruct (p_type pr); congruence.
    - rewrite A; [|exact NC|].
      + pose proof plain_names as PN. rewrite forallb_forall in PN. specialize (PN _ (model_params_sub _ _ _ MP I)).
        unfold plain_name in PN. cbn [fst snd] in PN. apply Bool.andb_true_iff in PN as [PN _]. rewrite starts_with in PN. cbn [orb negb] in PN.
        apply Bool.negb_true_iff, not_named in PN. rewrite assoc_update_other; [exact W|]. intros X. apply PN, in_app_iff. left. exact X.
      + intros _ X. pose proof plain_names as PN. rewrite forallb_forall in PN. specialize (PN _ (model_params_sub _ _ _ MP I)).
        unfold plain_name in PN. cbn [fst snd] in PN. apply Bool.andb_true_iff in PN as [PN _]. rewrite starts_with in PN. cbn [orb negb] in PN.
        apply Bool.negb_true_iff, not_named in PN. apply PN, in_app_iff. right. exact X.
  Qed.
End Construct.
Lemma C10_scalar_values_pf : forall o disk mo uf sp c user inst, distinct_keys user -> construct o disk mo uf sp c user = Ok inst ->
  forall ch decls name rest, choices_of (i_params inst) = Ok ch -> model_params ch = Ok decls ->
  In (name, Text ("::" ++ rest)%string) decls -> ~ customised (i_params inst) name ->
  exists node v w, param_at config_default (str_split rest ".") node /\ lookup (i_params inst) (str_split rest ".") = Some v /\
    handed_over o node v w /\ assoc name (i_data inst) = Ok (Scalar w).
Proof. intros o disk mo uf sp c user inst. apply scalar_values. Qed.

(** *** Regional, time-dependent and grid parameters *)
(** Which column of which parameter file a regional parameter is read from. *)
Definition adapt_label (v : pyval) : string := if py_truth v then "Ad" else "NoAd".
Inductive reads (o : oracles) (params : pyval) : string -> string -> string -> Prop :=
| reads_capital : reads o params "init_capitalstock_factor" "economics" "init_capital_factor"
| reads_mac k : lookup params ["economics"; "MAC"; "regional calibration factor"] = Some k ->
    reads o params "MAC_scaling_factor" "MAC" (show o k)
| reads_noslr x : In x ["form"; "b1"; "b2"; "b3"] -> reads o params ("damage_noslr_" ++ x)%string "COACCH" ("NoSLR_" ++ x)%string
| reads_noslr_a q : lookup params ["economics"; "damages"; "quantile"] = Some q ->
    reads o params "damage_noslr_a" "COACCH" ("NoSLR_a (q=" ++ show o q ++ ")")%string
| reads_slr x a : In x ["form"; "b1"; "b2"; "b3"] -> lookup params ["economics"; "damages"; "coacch_slr_withadapt"] = Some a ->
    reads o params ("damage_slr_" ++ x)%string "COACCH" ("SLR-" ++ adapt_label a ++ "_" ++ x)%string
| reads_slr_a a q : lookup params ["economics"; "damages"; "coacch_slr_withadapt"] = Some a ->
    lookup params ["economics"; "damages"; "quantile"] = Some q ->
    reads o params "damage_slr_a" "COACCH" ("SLR-" ++ adapt_label a ++ "_a (q=" ++ show o q ++ ")")%string
| reads_mortality age x : In age ["oldest"; "older"; "young"] -> In x ["a"; "b"; "c"] ->
    reads o params ("mortality_param_" ++ age ++ "_" ++ x)%string "mortality" (age ++ "_" ++ x)%string.
(** No colon in the text of a configured column name. *)
Definition no_colon (s : string) : Prop := all_chars (fun c => c <> ":"%char) s.
Definition plain_columns (o : oracles) (params : pyval) : Prop :=
  forall p v, In p [["economics"; "MAC"; "regional calibration factor"]; ["economics"; "damages"; "quantile"]] ->
    lookup params p = Some v -> no_colon (show o v).

Lemma append_assoc' a b c : ((a ++ b) ++ c = a ++ (b ++ c))%string.
Proof. induction a as [|x a IH]; [reflexivity|]. cbn. f_equal. exact IH. Qed.
Lemma append_empty a : (a ++ "" = a)%string.
Proof. induction a as [|x a IH]; [reflexivity|]. cbn. f_equal. exact IH. Qed.
Lemma no_colon_app a b : no_colon (a ++ b)%string <-> no_colon a /\ no_colon b.
Proof. unfold no_colon. induction a as [|x a IH]; cbn; [tauto|]. rewrite IH. tauto. Qed.
Lemma split_no_colon s : forall acc, no_colon s -> PyBase.split_aux "::" 0%nat acc s = [acc ++ s]%string.
Proof.
  induction s as [|c s IH]; intros acc H; cbn [PyBase.split_aux]; [rewrite append_empty; reflexivity|]. destruct H as [H1 H2].
  assert (P : prefix "::" (String c s) = false) by (cbn [prefix]; destruct (ascii_dec ":" c); [congruence|reflexivity]).
  unfold str_startswith. try rewrite P. rewrite IH by exact H2. rewrite append_assoc'. reflexivity.
Qed.

Lemma after_regional rest : no_colon rest -> after_colons ("regional::" ++ rest) = Ok rest.
Proof.
  intros H. unfold after_colons, str_split.
  assert (E : PyBase.split_aux "::" 0%nat "" ("regional::" ++ rest)%string = "regional" :: PyBase.split_aux "::" 0%nat "" rest) by (destruct rest; reflexivity).
  rewrite E, split_no_colon by exact H. reflexivity.
Qed.
Lemma split_once_dot a b : all_chars (fun c => c <> "."%char) a -> split_once (a ++ "." ++ b) = Ok (a, b).
Proof.
  induction a as [|c a IH]; intros H; [reflexivity|]. destruct H as [H1 H2]. change (split_once (String c (a ++ "." ++ b)) = Ok (String c a, b)). cbn [split_once].
  apply Ascii.eqb_neq in H1. rewrite H1, (IH H2). reflexivity.
Qed.
Lemma assoc_nodup {A} (l : list (string * A)) k v : NoDup (map fst l) -> In (k, v) l -> assoc k l = Ok v.
Proof.
  unfold assoc. induction l as [|[k' v'] l IH]; intros N H; [destruct H|]. cbn in N |- *. apply NoDup_cons_iff in N as [N1 N2]. destruct H as [H|H].
  - injection H as -> ->. rewrite String.eqb_refl. reflexivity.
  - destruct (String.eqb k' k) eqn:E; [|apply IH; assumption]. apply String.eqb_eq in E. subst. exfalso. apply N1, in_map_iff. exists (k, v). auto.
Qed.
Lemma all_decls_nodup : NoDup (map fst all_decls).
Proof. apply nodup_str_ok. vm_compute. reflexivity. Qed.

(** the documentation text behind [reads] *)
Lemma reads_doc o params name cat col d : reads o params name cat col -> In (name, d) all_decls ->
  doc_text o params d = Ok ("regional::" ++ cat ++ "." ++ col)%string.
Proof.
  intros R I. apply (assoc_nodup _ _ _ all_decls_nodup) in I.
  assert (C : forall p v, lookup params p = Some v -> config params p = Ok v) by (intros; apply config_lookup; assumption).
  destruct R as [|k K|x X|q Q|x a X A|a q A Q|age x G X].
  - vm_compute in I. injection I as <-. reflexivity.
  - assert (E : assoc "MAC_scaling_factor" all_decls = Ok d) by exact I. cbv -[show config] in E. apply Ok_inj in E. subst d.
    unfold doc_text. rewrite (C _ _ K). reflexivity.
  - cbn [In] in X. destruct X as [<-|[<-|[<-|[<-|[]]]]]; vm_compute in I; injection I as <-; reflexivity.
  - cbv -[show config noslr_a_doc] in I. apply Ok_inj in I. subst d. unfold doc_text, noslr_a_doc. rewrite (C _ _ Q). reflexivity.
  - cbn [In] in X. destruct X as [<-|[<-|[<-|[<-|[]]]]]; cbv -[show config slr_param_name] in I; apply Ok_inj in I; subst d;
      unfold doc_text, slr_param_name; rewrite (C _ _ A); reflexivity.
  - cbv -[show config slr_param_name append] in I. apply Ok_inj in I. subst d. unfold doc_text. rewrite (C _ _ Q). cbn [bind]. unfold slr_param_name. rewrite (C _ _ A). reflexivity.
  - cbn [In] in G, X. destruct G as [<-|[<-|[<-|[]]]]; destruct X as [<-|[<-|[<-|[]]]]; vm_compute in I; injection I as <-; reflexivity.
Qed.

Lemma get_spec mo st cat col rs l : RegionalParams.get mo st cat col rs = Ok l ->
  map fst l = rs /\ forall r v, In (r, v) l -> getregional mo st cat col r = Ok v.
Proof.
  revert l. induction rs as [|r rs IH]; intros l H; cbn in H; [injection H as <-; split; [reflexivity|intros ? ? []]|].
  apply bind_ok in H as (v & V & H). apply bind_ok in H as (l' & L & H). apply Ok_inj in H. subst l. destruct (IH _ L) as [A B].
  split; [cbn; congruence|]. intros r' v' [I|I]; [injection I as <- <-; exact V|apply B, I].
Qed.
Lemma show_no_colon o params name cat col : reads o params name cat col -> plain_columns o params ->
  no_colon (cat ++ "." ++ col)%string /\ all_chars (fun c => c <> "."%char) cat.
Proof.
  assert (L : forall s, negb (existsb (Ascii.eqb ":") (list_ascii_of_string s)) = true -> no_colon s).
  { unfold no_colon. induction s as [|c s IH]; cbn [existsb list_ascii_of_string all_chars]; [auto|]. intros H. apply Bool.negb_true_iff, Bool.orb_false_iff in H as [H1 H2].
    split; [intros ->; discriminate H1|apply IH; rewrite H2; reflexivity]. }
  intros R P. rewrite !no_colon_app. destruct R as [|k K|x X|q Q|x a X A|a q A Q|age x G X].
  - repeat split; try discriminate; apply L; reflexivity.
  - repeat split; try discriminate; try (apply L; reflexivity). eapply P; [|exact K]. cbn; auto.
  - cbn [In] in X. destruct X as [<-|[<-|[<-|[<-|[]]]]]; repeat split; try discriminate; apply L; reflexivity.
  - repeat split; try discriminate; try (apply L; reflexivity). apply no_colon_app. split; [apply L; reflexivity|]. apply no_colon_app. split; [|apply L; reflexivity].
    eapply P; [|exact Q]. cbn; auto.
  - unfold adapt_label. cbn [In] in X. destruct (py_truth a); destruct X as [<-|[<-|[<-|[<-|[]]]]]; repeat split; try discriminate; apply L; reflexivity.
  - repeat split; try discriminate; try (apply L; reflexivity). unfold adapt_label. destruct (py_truth a); rewrite !no_colon_app; repeat split; try discriminate; try (apply L; reflexivity);
      (eapply P; [|exact Q]; cbn; auto).
  - cbn [In] in G, X. destruct G as [<-|[<-|[<-|[]]]]; destruct X as [<-|[<-|[<-|[]]]]; repeat split; try discriminate; apply L; reflexivity.
Qed.
Lemma list_prod_in (t : nat) r ts (rs : list string) : In t ts -> In r rs -> In (t, r) (list_prod ts rs).
Proof. intros. apply in_prod; assumption. Qed.
Lemma map_result_in {A B} (f : A -> result B) l l' : map_result f l = Ok l' -> forall x, In x l -> exists y, f x = Ok y /\ In y l'.
Proof.
  revert l'. induction l as [|x l IH]; intros l' H y Y; [destruct Y|]. cbn in H. apply bind_ok in H as (z & Z & H). apply bind_ok in H as (zs & ZS & H).
  injection H as <-. destruct Y as [<-|Y]; [exists z; split; [exact Z|left; reflexivity]|]. destruct (IH _ ZS _ Y) as (w & W1 & W2). exists w. split; [exact W1|right; exact W2].
Qed.


Lemma not_manual (decls : list (string * doc)) (c : choices) (name : string) (d : doc) : model_params c = Ok decls -> In (name, d) decls -> (forall s, d = Text s -> s <> "None") -> ~ In name manual_names.
Proof.
  intros M I T. pose proof plain_names as PN. rewrite forallb_forall in PN. specialize (PN _ (model_params_sub _ _ _ M I)).
  unfold plain_name in PN. cbn [fst snd] in PN. apply Bool.andb_true_iff in PN as [_ PN]. apply Bool.negb_true_iff, Bool.andb_false_iff in PN as [PN|PN].
  - apply not_named, PN.
  - destruct d as [s|f]; [|discriminate]. apply Bool.negb_false_iff, String.eqb_eq in PN. subst. destruct (T _ eq_refl eq_refl).
Qed.
Lemma manual_fst ts td n rs start dt : map fst (manual ts td n rs start dt) = manual_names.
Proof. reflexivity. Qed.

(** A regional parameter holds, for every region, the value the regional parameter store gives for its column:
    the user's override if there is one, otherwise the file's (C15, C16). *)
Lemma C10_regional_values_pf : forall o disk mo uf sp c user inst, construct o disk mo uf sp c user = Ok inst -> plain_columns o (i_params inst) ->
  forall ch decls name cat col, choices_of (i_params inst) = Ok ch -> model_params ch = Ok decls -> In name (map fst decls) ->
  reads o (i_params inst) name cat col -> ~ customised (i_params inst) name ->
  (combined (i_params inst) -> ~ In name combined_names) ->
  exists l, assoc name (i_data inst) = Ok (ByRegion l) /\ map fst l = i_regions inst /\
    forall r v, In (r, v) l -> getregional mo (i_store inst) cat col r = Ok v.
Proof.
  intros o disk mo uf sp c user inst H PC ch decls name cat col CH MP I RD NC NB.
  destruct (construct_inv _ _ _ _ _ _ _ _ H) as (raw & rs & ch' & decls' & start & dt & H1 & H2 & H3 & _ & H5 & H6 & _ & _ & _ & _ & _ & H12).
  assert (ch' = ch) by congruence. subst ch'. assert (decls' = decls) by congruence. subst decls'.
  apply in_map_iff in I as ([n d] & N & I). cbn in N. subst n.
  pose proof (reads_doc _ _ _ _ _ _ RD (model_params_sub _ _ _ MP I)) as DT.
  destruct (instance_data_inv _ _ _ _ _ _ _ _ _ _ _ _ _ H12) as (m0 & cm & M0 & CM & A & _).
  destruct (assign_all _ _ _ _ _ _ _ _ _ _ _ _ (model_params_nodup _ _ MP) M0) as [_ B].
  destruct (B _ _ I) as (s & v & D & V & W). rewrite DT in D. apply Ok_inj in D. subst s.
  destruct (show_no_colon _ _ _ _ _ RD PC) as [S1 S2]. unfold value_for in V.
  assert (F1 : str_startswith ("regional::" ++ cat ++ "." ++ col) "::" = false) by reflexivity. rewrite F1, starts_with, (after_regional _ S1) in V.
  cbn [bind] in V. rewrite (split_once_dot _ _ S2) in V. cbn [bind fst snd] in V. apply bind_ok in V as (l & V & E). apply Ok_inj in E. subst v.
  destruct (get_spec _ _ _ _ _ _ V) as [G1 G2]. exists l. split; [|auto]. rewrite A by assumption. rewrite assoc_update_other; [exact W|].
  rewrite manual_fst. eapply not_manual; [exact MP|exact I|]. intros s E ->. subst d. discriminate DT.
Qed.

(** The baseline data of an instance: one value per time step and region, interpolated by the data store at the step's year. *)
Lemma C10_data_values_pf : forall o disk mo uf sp c user inst, construct o disk mo uf sp c user = Ok inst ->
  forall name var, In (name, var) [("population", "population"); ("baseline_GDP", "GDP"); ("baseline_emissions", "emissions")] ->
  ~ customised (i_params inst) name ->
  exists l, assoc name (i_data inst) = Ok (ByTimeAndRegion l) /\
    (forall t r, In t (model_steps (a_start (i_args inst)) (a_end (i_args inst)) (a_dt (i_args inst))) -> In r (i_regions inst) -> exists x, In ((t, r), x) l) /\
    forall t r x, In ((t, r), x) l -> interp_data (i_args inst) (i_series inst) (year_at (a_start (i_args inst)) (a_dt (i_args inst)) t) r var = Ok x.
Proof.
  intros o disk mo uf sp c user inst H name var NV NC.
  destruct (construct_inv _ _ _ _ _ _ _ _ H) as (raw & rs & ch & decls & start & dt & H1 & H2 & H3 & _ & H5 & H6 & _ & _ & _ & _ & _ & H12).
  assert (I : In (name, Text ("timeandregional::" ++ var)%string) decls).
  { clear - H6 NV. choose_modules H6 dm tr tf we ob D T F W OB. apply in_app_iff. left.
    cbn [In] in NV. destruct NV as [E|[E|[E|[]]]]; injection E as <- <-; cbn; tauto. }
  assert (N2 : ~ In name (manual_names ++ combined_names)).
  { cbn [In] in NV. destruct NV as [E|[E|[E|[]]]]; injection E as <- <-; apply not_named; reflexivity. }
  destruct (instance_data_inv _ _ _ _ _ _ _ _ _ _ _ _ _ H12) as (m0 & cm & M0 & CM & A & _).
  destruct (assign_all _ _ _ _ _ _ _ _ _ _ _ _ (model_params_nodup _ _ H6) M0) as [_ B].
  destruct (B _ _ I) as (s & v & D & V & W). unfold doc_text in D. apply Ok_inj in D. subst s. unfold value_for in V. rewrite starts_with in V.
  assert (F : str_startswith ("timeandregional::" ++ var) "::" = false /\ str_startswith ("timeandregional::" ++ var) "regional::" = false /\
    after_colons ("timeandregional::" ++ var) = Ok var).
  { cbn [In] in NV. destruct NV as [E|[E|[E|[]]]]; injection E as <- <-; repeat split; reflexivity. }
  destruct F as (F1 & F2 & F3). rewrite F1, F2, F3 in V. cbn [bind] in V. apply bind_ok in V as (l & V & E). apply Ok_inj in E. subst v.
  exists l. split.
  - rewrite A; [|exact NC|intros _ X; apply N2, in_app_iff; right; exact X]. rewrite assoc_update_other; [exact W|].
    rewrite manual_fst. intros X. apply N2, in_app_iff. left. exact X.
  - split.
    + intros t r Ht Hr. unfold time_regional in V. destruct (map_result_in _ _ _ V (t, r)) as (y & Y1 & Y2); [apply list_prod_in; assumption|].
      cbn [fst snd] in Y1. apply bind_ok in Y1 as (x & X & Y1). apply Ok_inj in Y1. subst y. exists x. exact Y2.
    + intros t r x Hx. unfold time_regional in V. clear - V Hx. revert l V Hx. match goal with |- context [map_result _ ?q] => generalize q end. intros ps. induction ps as [|[t' r'] ps IH]; intros l V Hx; cbn [map_result] in V; [apply Ok_inj in V; subst l; destruct Hx|].
      apply bind_ok in V as (y & Y & V). apply bind_ok in V as (l' & L' & V). apply Ok_inj in V. subst l. destruct Hx as [Hx|Hx]; [|eapply IH; eassumption].
      cbn [fst snd] in Y. apply bind_ok in Y as (x' & X & Y). apply Ok_inj in Y. subst y. injection Hx as -> -> ->. exact X.
Qed.

(** The time grid and the regions of an instance. *)
Lemma C10_grid_values_pf : forall o disk mo uf sp c user inst, construct o disk mo uf sp c user = Ok inst ->
  (forall name, In name ["beginyear"; "dt"; "tf"; "t"; "regions"] -> ~ customised (i_params inst) name) ->
  exists start dt, lookup (i_params inst) ["time"; "start"] = Some start /\ lookup (i_params inst) ["time"; "dt"] = Some dt /\
    assoc "beginyear" (i_data inst) = Ok (Scalar start) /\ assoc "dt" (i_data inst) = Ok (Scalar dt) /\
    assoc "t" (i_data inst) = Ok (Steps (num_years (a_start (i_args inst)) (a_end (i_args inst)) (a_dt (i_args inst)))) /\
    assoc "tf" (i_data inst) = Ok (Scalar (VInt (num_years (a_start (i_args inst)) (a_end (i_args inst)) (a_dt (i_args inst)) - 1))) /\
    assoc "regions" (i_data inst) = Ok (Names (i_regions inst)).
Proof.
  intros o disk mo uf sp c user inst H NC.
  destruct (construct_inv _ _ _ _ _ _ _ _ H) as (raw & rs & ch & decls & start & dt & H1 & H2 & H3 & _ & H5 & H6 & _ & _ & _ & S & D & H12).
  destruct (instance_data_inv _ _ _ _ _ _ _ _ _ _ _ _ _ H12) as (m0 & cm & M0 & CM & A & _). exists start, dt. split; [exact S|]. split; [exact D|].
  assert (NB : forall name, In name ["beginyear"; "dt"; "tf"; "t"; "regions"] -> ~ In name combined_names).
  { intros name I. cbn [In] in I. repeat (destruct I as [<-|I]; [apply not_named; reflexivity|]). destruct I. }
  assert (ND : forall ts td n rs start dt, NoDup (map fst (manual ts td n rs start dt))) by (intros; rewrite manual_fst; apply nodup_str_ok; reflexivity).
  repeat split; (rewrite A; [|apply NC; cbn; tauto|intros _; apply NB; cbn; tauto]); (apply assoc_update_in; [apply ND|unfold manual; cbn [In]; tauto]).
Qed.

(** Combined damages: quadratic non-SLR damages from the combined columns, no separate SLR damages. *)
Lemma C10_combined_damages_pf : forall o disk mo uf sp c user inst, distinct_keys user -> construct o disk mo uf sp c user = Ok inst -> combined (i_params inst) ->
  let everywhere v := Ok (ByRegion (map (fun r => (r, v)) (i_regions inst))) in
  (forall x, In x ["b1"; "b2"] -> exists l q a, lookup (i_params inst) ["economics"; "damages"; "quantile"] = Some q /\
     lookup (i_params inst) ["economics"; "damages"; "coacch_slr_withadapt"] = Some a /\
     assoc ("damage_noslr_" ++ x)%string (i_data inst) = Ok (ByRegion l) /\ map fst l = i_regions inst /\
     forall r v, In (r, v) l -> getregional mo (i_store inst) "COACCH" ("combined_" ++ x ++ "_" ++ adapt_label a ++ "-q" ++ show o q)%string r = Ok v) /\
  assoc "damage_noslr_form" (i_data inst) = everywhere (VStr "Robust-Quadratic") /\
  assoc "damage_noslr_b3" (i_data inst) = everywhere (VInt 0) /\ assoc "damage_noslr_a" (i_data inst) = everywhere (VInt 1) /\
  assoc "damage_slr_form" (i_data inst) = everywhere (VStr "Robust-Linear") /\
  (forall x, In x ["b1"; "b2"; "b3"; "a"] -> assoc ("damage_slr_" ++ x)%string (i_data inst) = everywhere (VInt 0)).
Proof.
  intros o disk mo uf sp c user inst DU H CB everywhere.
  destruct (construct_inv _ _ _ _ _ _ _ _ H) as (raw & rs & ch & decls & start & dt & H1 & H2 & H3 & _ & H5 & H6 & _ & _ & _ & S & D & H12).
  destruct (instance_data_inv _ _ _ _ _ _ _ _ _ _ _ _ _ H12) as (m0 & cm & M0 & CM & _ & A). destruct (A CB) as (cc & C & _ & AS). clear A.
  unfold instance_coacch in C. apply bind_ok in C as (q & Q & C). apply bind_ok in C as (comb & CM' & C). apply bind_ok in C as (a & AD & C).
  apply config_lookup in CM', AD. destruct CB as (_ & v & V1 & V2). rewrite V1 in CM'. injection CM' as <-. rewrite V2 in C.
  apply bind_ok in C as (b1 & B1 & C). apply bind_ok in C as (b2 & B2 & C). apply Ok_inj in C. subst cc.
  assert (LQ : lookup (i_params inst) ["economics"; "damages"; "quantile"] = Some q).
  { destruct (config (i_params inst) ["economics"; "damages"; "quantile"]) as [x|e] eqn:E; [injection Q as ->; apply config_lookup, E|].
    exfalso. clear - H1 H2 E DU.
    destruct (template_node ["economics"; "damages"; "quantile"]) as [node|] eqn:T; [|vm_compute in T; discriminate T]. apply template_node_ok in T.
    assert (ACC : accepted o user raw (i_params inst) (i_tree inst)) by (split; [exact DU|auto]).
    destruct (accepted_param _ _ _ _ _ _ _ ACC T) as (pr & v & _ & _ & L & _). destruct (final_shape _ _ _ _ _ _ _ ACC L) as (w & W & _).
    apply config_lookup in W. congruence. }

  destruct (get_spec _ _ _ _ _ _ B1) as [G1 G2]. destruct (get_spec _ _ _ _ _ _ B2) as [G3 G4].
  split; [|split; [|split; [|split; [|split]]]].
  - intros x X. cbn [In] in X. destruct X as [<-|[<-|[]]].
    + exists b1, q, a. split; [exact LQ|]. split; [exact AD|]. split; [apply AS; cbn; tauto|]. split; [exact G1|exact G2].
    + exists b2, q, a. split; [exact LQ|]. split; [exact AD|]. split; [apply AS; cbn; tauto|]. split; [exact G3|exact G4].
  - apply AS. cbn. tauto.
  - apply AS. cbn. tauto.
  - apply AS. cbn. tauto.
  - apply AS. cbn. tauto.
  - intros x X. cbn [In] in X. destruct X as [<-|[<-|[<-|[<-|[]]]]]; apply AS; cbn; tauto.
Qed.


(** *** The user's custom_mapping *)
Lemma nodup_strings (d : pydict) : NoDup (map fst d) ->
  NoDup (map fst (flat_map (fun kv : key * pyval => match fst kv with KStr k => [(k, Custom (snd kv))] | KInt _ => [] end) d)).
Proof.
  assert (M : forall (d : pydict) k, In k (map fst (flat_map (fun kv : key * pyval => match fst kv with KStr k => [(k, Custom (snd kv))] | KInt _ => [] end) d)) -> In (KStr k) (map fst d)).
  { clear. induction d as [|[[k'|z] v] d IH]; intros k H; cbn in H |- *; [exact H| |right; apply IH, H]. destruct H as [<-|H]; [left; reflexivity|right; apply IH, H]. }
  induction d as [|[[k|z] v] d IH]; intros ND; cbn [map fst flat_map app]; [constructor| |]; cbn [map fst] in ND; apply NoDup_cons_iff in ND as [N ND].
  - constructor; [intros I; apply N, M, I|apply IH, ND].
  - apply IH, ND.
Qed.
Lemma wfb_dict_get ks : forall v x, wfb v = true -> dict_get v ks = Some x -> wfb x = true.
Proof.
  induction ks as [|k ks IH]; intros v x W H; [injection H as <-; exact W|]. destruct v as [| | | | | |d]; try discriminate. cbn [dict_get] in H.
  destruct (dget d k) as [y|] eqn:Y; [|discriminate]. apply wfb_dict in W as [_ W]. eapply IH; [|exact H]. eapply W, dget_In, Y.
Qed.
(** An entry of custom_mapping replaces whatever the configuration gives the parameter, except the damage coefficients of
    the combined damages, which are set afterwards. *)
Lemma C10_custom_mapping_wins_pf : forall o disk mo uf sp c user inst, distinct_keys user -> construct o disk mo uf sp c user = Ok inst ->
  forall name v, lookup (i_params inst) ["simulation"; "custom_mapping"; name] = Some v -> (combined (i_params inst) -> ~ In name combined_names) ->
  assoc name (i_data inst) = Ok (Custom v).
Proof.
  intros o disk mo uf sp c user inst DU H name v L NB.
  destruct (construct_inv _ _ _ _ _ _ _ _ H) as (raw & rs & ch & decls & start & dt & H1 & H2 & H3 & _ & H5 & H6 & _ & _ & _ & S & D & H12).
  assert (ACC : accepted o user raw (i_params inst) (i_tree inst)) by (split; [exact DU|auto]).
  unfold instance_data in H12. apply bind_ok in H12 as (dm & DM & H12). apply bind_ok in H12 as (m & M & H12).
  unfold instance_main in M. apply bind_ok in M as (m0 & M0 & M). apply bind_ok in M as (cm & CM & M). apply Ok_inj in M. subst m. apply config_lookup in DM.
  assert (CU : assoc name (update cm (update (manual (a_start (i_args inst)) (a_dt (i_args inst)) (num_years (a_start (i_args inst)) (a_end (i_args inst)) (a_dt (i_args inst))) (i_regions inst) start dt) m0)) = Ok (Custom v)).
  { apply assoc_update_in.
    - unfold custom_mapping in CM. apply bind_ok in CM as (s & SI & CM). apply config_lookup in SI. destruct s as [| | | | | |d]; try discriminate.
      destruct (dget d (KStr "custom_mapping")) as [x|] eqn:G; [|injection CM as <-; constructor]. destruct x as [| | | | | |cd]; try discriminate. apply Ok_inj in CM. subst cm.
      apply nodup_strings. assert (LD : lookup (i_params inst) ["simulation"; "custom_mapping"] = Some (VDict cd)).
      { cbn [lookup] in SI |- *. destruct (i_params inst) as [| | | | | |pd]; try discriminate. destruct (dget pd (KStr "simulation")) as [x|]; [|discriminate]. injection SI as ->. rewrite G. reflexivity. }
      clear - ACC LD. pose proof (accepted_distinct _ _ _ _ _ ACC) as DR. destruct ACC as (_ & _ & R). apply distinct_wfb in DR.
      pose proof (resolve_shape _ _ DR R) as SH. rewrite lookup_dict_get in LD.
      pose proof (dict_get_shape raw (keys_of ["simulation"; "custom_mapping"])) as K. rewrite <- SH, dict_get_shape, LD in K. cbn [option_map] in K.
      destruct (dict_get raw _) as [x|] eqn:X; [|discriminate K]. cbn [option_map] in K. pose proof (wfb_dict_get _ _ _ DR X) as WX.
      rewrite shape_dict in K. destruct x as [| | | | | |d']; try discriminate K. rewrite shape_dict in K. injection K as K.
      assert (F : forall d, map fst (shapes d) = map fst d) by (intros; unfold shapes; rewrite map_map; reflexivity).
      rewrite <- F, K, F. apply wfb_dict in WX. apply WX.
    - unfold custom_mapping in CM. apply bind_ok in CM as (s & SI & CM). apply config_lookup in SI. destruct s as [| | | | | |d]; try discriminate.
      cbn [lookup] in SI, L. destruct (i_params inst) as [| | | | | |pd]; try discriminate. destruct (dget pd (KStr "simulation")) as [x|]; [|discriminate]. injection SI as ->.
      destruct (dget d (KStr "custom_mapping")) as [x|] eqn:G; [|discriminate L]. destruct x as [| | | | | |cd]; try discriminate. apply Ok_inj in CM. subst cm.
      destruct (dget cd (KStr name)) as [y|] eqn:Y; [|discriminate L]. injection L as ->. apply in_flat_map. exists (KStr name, v). split; [apply dget_In, Y|left; reflexivity]. }
  destruct (py_eqb dm (VStr "COACCH")) eqn:E; [|apply Ok_inj in H12; subst; rewrite H12; exact CU].
  apply eqb_vstr in E. subst dm. apply bind_ok in H12 as (cc & C & H12). apply Ok_inj in H12. rewrite H12. rewrite assoc_update_other; [exact CU|].
  destruct cc as [|p cc']; [intros []|]. set (cc := p :: cc') in *.
  unfold instance_coacch in C. apply bind_ok in C as (q & _ & C). apply bind_ok in C as (comb & CB & C). apply bind_ok in C as (ad & _ & C). apply config_lookup in CB.
  destruct (py_truth comb) eqn:T; [|discriminate C]. apply bind_ok in C as (b1 & _ & C). apply bind_ok in C as (b2 & _ & C). apply Ok_inj in C. rewrite C.
  apply NB. split; [exact DM|eauto].
Qed.
