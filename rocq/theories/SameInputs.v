(** C63, C64: two models whose configurations differ in the end year and the listed regions only. *)
From Verif Require Import PyBase NestedDict Parsers Config ConfigDefault NestedDictFacts ConfigFacts ConfigFacts2 ConfigFacts3 ConfigSpec RefFacts ConfigBridge ConfigLemmas
  TimeGrid DataStore RegionalParams Instantiate InstFacts TimeGridLemmas DataStoreLemmas RegionalParamsLemmas InstantiateLemmas ConstructFacts BundledFacts BundledSigns
  Model WelfareSpec Loading Setters2 Horizon RegionOrder.
From Coq Require Import Reals Lra Lia QArith Qreals Permutation.
Import ListNotations.
Open Scope string_scope.
Open Scope list_scope.
Open Scope R_scope.
Set Bullet Behavior "Strict Subproofs".

(** *** Specification *)
(** The settings other than the end year and the section of the regions *)
Definition kept (path : list string) : bool :=
  match path with
  | [] => false
  | k :: r => if String.eqb k "regions" then false
              else if String.eqb k "time" then match r with [] => false | k' :: _ => negb (String.eqb k' "end") end
              else true
  end.
(** Final parameters that differ in the end year, and in that regions are left out or listed in another order *)
Record same_but_scope (params params' : pyval) : Prop := {
  sb_rest : forall path, kept path = true -> lookup params' path = lookup params path;
  sb_regions : forall r entry, lookup params' ["regions"; r] = Some entry -> lookup params ["regions"; r] = Some entry }.

(** *** The parameters *)
Section Params.
  Variables params params' : pyval.
  Hypothesis SB : same_but_scope params params'.

  Lemma config_kept path v : config params path = Ok v -> kept path = true -> config params' path = Ok v.
  Proof. intros H K. apply config_lookup. rewrite (sb_rest _ _ SB path K). apply config_lookup, H. Qed.
  Lemma config_kept' path v : kept path = true -> config params' path = Ok v -> config params path = Ok v.
  Proof. intros K H. apply config_lookup. rewrite <- (sb_rest _ _ SB path K). apply config_lookup, H. Qed.
  Lemma kept_same path v v' : kept path = true -> config params path = Ok v -> config params' path = Ok v' -> v' = v.
  Proof. intros K H H'. rewrite (config_kept _ _ H K) in H'. injection H' as <-. reflexivity. Qed.

  Lemma same_choices ch ch' : choices_of params = Ok ch -> choices_of params' = Ok ch' -> ch' = ch.
  Proof.
    unfold choices_of. intros H H'.
    apply bind_ok in H as (a & A & H). apply bind_ok in H as (b & B & H). apply bind_ok in H as (c & C & H).
    apply bind_ok in H as (d & D & H). apply bind_ok in H as (e & E & H). apply Ok_inj in H. subst ch.
    rewrite (config_kept _ _ A eq_refl), (config_kept _ _ B eq_refl), (config_kept _ _ C eq_refl), (config_kept _ _ D eq_refl),
      (config_kept _ _ E eq_refl) in H'. cbn [bind] in H'. apply Ok_inj in H'. exact H'.
  Qed.
  Lemma same_store disk st st' : param_store disk params = Ok st -> param_store disk params' = Ok st' ->
    st_categories st' = st_categories st /\ st_params st = params /\ st_params st' = params'.
  Proof.
    unfold param_store. intros H H'.
    apply bind_ok in H as (a & A & H). apply bind_ok in H as (a2 & A2 & H). apply bind_ok in H as (b & B & H).
    apply bind_ok in H as (b2 & B2 & H). apply bind_ok in H as (b3 & B3 & H). apply bind_ok in H as (c & C & H).
    apply bind_ok in H as (c2 & C2 & H). apply bind_ok in H as (c3 & C3 & H).
    rewrite (config_kept _ _ A eq_refl) in H'. cbn [bind] in H'. rewrite A2 in H'. cbn [bind] in H'.
    rewrite (config_kept _ _ B eq_refl) in H'. cbn [bind] in H'. rewrite B2 in H'. cbn [bind] in H'. rewrite B3 in H'. cbn [bind] in H'.
    rewrite (config_kept _ _ C eq_refl) in H'. cbn [bind] in H'. rewrite C2 in H'. cbn [bind] in H'. rewrite C3 in H'. cbn [bind] in H'.
    unfold new_store in H, H'. apply bind_ok in H as (m & M & H). rewrite M in H'. cbn [bind] in H'.
    apply bind_ok in H as (cs & CS & H). rewrite CS in H'. cbn [bind] in H'. apply Ok_inj in H, H'. subst. auto.
  Qed.
  Lemma same_args rs rs' a a' : store_args_of params rs = Ok a -> store_args_of params' rs' = Ok a' ->
    a_start a' = a_start a /\ a_dt a' = a_dt a /\ a_variables a' = a_variables a /\ a_regions a = rs /\ a_regions a' = rs'.
  Proof.
    unfold store_args_of. intros H H'.
    apply bind_ok in H as (s & S & H). apply bind_ok in H as (s2 & S2 & H). apply bind_ok in H as (e & E & H). apply bind_ok in H as (e2 & E2 & H).
    apply bind_ok in H as (d & D & H). apply bind_ok in H as (d2 & D2 & H). apply bind_ok in H as (v & V & H). apply bind_ok in H as (v2 & V2 & H).
    apply bind_ok in H as (v3 & V3 & H). apply Ok_inj in H.
    rewrite (config_kept _ _ S eq_refl) in H'. cbn [bind] in H'. rewrite S2 in H'. cbn [bind] in H'.
    apply bind_ok in H' as (e' & E' & H'). apply bind_ok in H' as (e2' & E2' & H').
    rewrite (config_kept _ _ D eq_refl) in H'. cbn [bind] in H'. rewrite D2 in H'. cbn [bind] in H'.
    rewrite (config_kept _ _ V eq_refl) in H'. cbn [bind] in H'. rewrite V2 in H'. cbn [bind] in H'. rewrite V3 in H'. cbn [bind] in H'.
    apply Ok_inj in H'. subst. cbn. auto.
  Qed.

  (** *** The listed regions *)
  Lemma items_in d l r : items (VDict d) = Ok l -> In r (map fst l) <-> exists e, lookup (VDict d) [r] = Some e.
  Proof.
    unfold items. cbn [lookup]. revert l. induction d as [|[k v] d IH]; intros l H; cbn [map_result] in H.
    - injection H as <-. cbn. split; [intros []|intros [e E]; discriminate E].
    - apply bind_ok in H as (x & X & H). apply bind_ok in H as (l2 & H2 & H). injection H as <-. cbn [fst snd] in X.
      destruct k as [k|z]; [|discriminate X]. injection X as <-. cbn [map fst In dget]. specialize (IH l2 H2). split.
      + intros [<-|I].
        * assert (E : key_eqb (KStr k) (KStr k) = true) by (apply key_eqb_eq; reflexivity). rewrite E. eauto.
        * destruct (key_eqb (KStr k) (KStr r)); [eauto|apply IH, I].
      + intros [e E]. destruct (key_eqb (KStr k) (KStr r)) eqn:Q; [apply key_eqb_eq in Q; injection Q as ->; auto|right; apply IH; eauto].
  Qed.
  Lemma listed p0 rs l r : lookup p0 ["regions"] = Some rs -> items rs = Ok l ->
    (In r (map fst l) <-> exists e, lookup p0 ["regions"; r] = Some e).
  Proof.
    intros L I. assert (E : lookup p0 ["regions"; r] = lookup rs [r]).
    { cbn [lookup] in *. destruct p0; try discriminate L. destruct (dget d (KStr "regions")) as [x|]; [|discriminate L].
      injection L as ->. reflexivity. }
    rewrite E. destruct rs; try discriminate I. apply items_in, I.
  Qed.
  Lemma lookup_under r e rest : lookup params' ["regions"; r] = Some e ->
    lookup params' ("regions" :: r :: rest) = lookup params ("regions" :: r :: rest).
  Proof.
    intros H. pose proof (sb_regions _ _ SB r e H) as H'.
    assert (X : forall p0, lookup p0 ["regions"; r] = Some e -> lookup p0 ("regions" :: r :: rest) = lookup e rest).
    { intros p0 K. cbn [lookup] in *. destruct p0; try discriminate K. destruct (dget d (KStr "regions")) as [x|]; [|discriminate K].
      destruct x; try discriminate K. destruct (dget d0 (KStr r)) as [y|]; [|discriminate K]. injection K as ->. reflexivity. }
    rewrite (X _ H), (X _ H'). reflexivity.
  Qed.

  (** *** Regional parameters *)
  Lemma get_in mo st cat nm regs l r v : RegionalParams.get mo st cat nm regs = Ok l -> In (r, v) l ->
    In r regs /\ getregional mo st cat nm r = Ok v.
  Proof.
    revert l. induction regs as [|r0 regs IH]; intros l H I; cbn [RegionalParams.get] in H; [injection H as <-; destruct I|].
    apply bind_ok in H as (x & X & H). apply bind_ok in H as (l2 & H2 & H). injection H as <-. destruct I as [E|I].
    - injection E as <- <-. split; [left; reflexivity|exact X].
    - destruct (IH _ H2 I). split; [right|]; auto.
  Qed.
  Lemma get_all mo st cat nm regs l r : RegionalParams.get mo st cat nm regs = Ok l -> In r regs ->
    exists v, In (r, v) l /\ getregional mo st cat nm r = Ok v.
  Proof.
    revert l. induction regs as [|r0 regs IH]; intros l H I; cbn [RegionalParams.get] in H; [destruct I|].
    apply bind_ok in H as (x & X & H). apply bind_ok in H as (l2 & H2 & H). injection H as <-. destruct I as [<-|I].
    - exists x. split; [left; reflexivity|exact X].
    - destruct (IH _ H2 I) as (v & V1 & V2). exists v. split; [right|]; auto.
  Qed.
  Lemma same_regional mo st st' cat nm r v v' e :
    st_categories st' = st_categories st -> st_params st = params -> st_params st' = params' ->
    lookup params' ["regions"; r] = Some e ->
    getregional mo st cat nm r = Ok v -> getregional mo st' cat nm r = Ok v' -> v' = v.
  Proof.
    intros C P P' L H H'. unfold getregional in H, H'. rewrite P in H. rewrite P', C in H'.
    pose proof (lookup_under r e [cat; nm] L) as E.
    change [KStr "regions"; KStr r; KStr cat; KStr nm] with (keys_of ["regions"; r; cat; nm]) in H, H'.
    destruct (get_nested params (keys_of ["regions"; r; cat; nm])) as [x|x] eqn:X.
    - apply lookup_get in X. rewrite X in E. apply lookup_get in E. rewrite E in H'. congruence.
    - destruct (get_nested params' (keys_of ["regions"; r; cat; nm])) as [y|y] eqn:Y.
      + apply lookup_get in Y. rewrite Y in E. symmetry in E. apply lookup_get in E. congruence.
      + destruct x; try discriminate H; destruct y; try discriminate H'; congruence.
  Qed.
End Params.

(** *** Both trees of parsers are those of the template *)
Lemma same_tree o user user' raw raw' tree tree' :
  check_params o config_default user = Ok (raw, tree) -> check_params o config_default user' = Ok (raw', tree') -> tree' = tree.
Proof.
  assert (F : forall L p p' t x x', fold_result (parse_leaf o user) L (p, t) = Ok x -> fold_result (parse_leaf o user') L (p', t) = Ok x' -> snd x' = snd x).
  { induction L as [|[keys node] L IH]; intros p p' t x x' H H'; cbn [fold_result] in H, H'; [injection H as <-; injection H' as <-; reflexivity|].
    apply bind_ok in H as (y & Y & H). apply bind_ok in H' as (y' & Y' & H'). unfold parse_leaf in Y, Y'.
    apply bind_ok in Y as (pr & Y1 & Y). rewrite Y1 in Y'. cbn [bind] in Y'. apply bind_ok in Y as (t2 & Y2 & Y). rewrite Y2 in Y'. cbn [bind] in Y'.
    apply bind_ok in Y as (v & _ & Y). apply bind_ok in Y' as (v' & _ & Y'). apply bind_ok in Y as (q & _ & Y). apply bind_ok in Y' as (q' & _ & Y').
    injection Y as <-. injection Y' as <-. eapply IH; eauto. }
  unfold check_params. intros H H'. apply bind_ok in H as (x & X & H). apply bind_ok in H as (_ & _ & H). injection H as E.
  apply bind_ok in H' as (x' & X' & H'). apply bind_ok in H' as (_ & _ & H'). injection H' as E'.
  unfold parse_params in X, X'. destruct config_default; try discriminate X. pose proof (F _ _ _ _ _ _ X X') as K. subst. exact K.
Qed.

(** *** The data store *)
Lemma values_at uf sp rd ys rs s l r v : pure_values uf sp rd ys rs s = Ok l -> assoc r l = Ok v -> pure_data uf sp rd ys r s = Ok v.
Proof.
  intros H A. destruct (pure_values_spec _ _ _ _ _ _ _ H) as [_ K]. apply K. apply assoc_some, A.
Qed.
Lemma load_at uf sp rd ys rs vars l name vals : pure_load uf sp rd ys rs vars = Ok l -> assoc name l = Ok vals ->
  exists s, assoc name vars = Ok s /\ pure_values uf sp rd ys rs s = Ok vals.
Proof.
  revert l. induction vars as [|[n s] vars IH]; intros l H A; cbn [pure_load] in H; [injection H as <-; discriminate A|].
  apply bind_ok in H as (t & _ & H). apply bind_ok in H as (x & X & H). apply bind_ok in H as (l2 & H2 & H). injection H as <-.
  unfold assoc in A |- *. cbn [find fst] in A |- *. destruct (String.eqb n name); [injection A as <-; eauto|]. apply (IH l2 H2 A).
Qed.
Lemma ceil_mono x y : x <= y -> (ceil x <= ceil y)%Z.
Proof. intros H. pose proof (ceil_spec x). pose proof (ceil_spec y). apply Z.lt_succ_r, lt_IZR. unfold Z.succ. rewrite plus_IZR. lra. Qed.
Lemma step_in_grid start stop dt t : 0 < dt <= 20 -> (t < Z.to_nat (num_years start stop dt))%nat ->
  (t < List.length (data_years start stop dt))%nat.
Proof.
  intros D H. unfold data_years, arange. rewrite map_length, seq_length. unfold num_years in H.
  assert (E : (ceil ((stop - start) / dt) + 1 <= ceil ((stop + 50 - start) / dt))%Z).
  { pose proof (ceil_spec ((stop - start) / dt)) as C1. pose proof (ceil_spec ((stop + 50 - start) / dt)) as C2.
    apply Z.lt_succ_r, lt_IZR. unfold Z.succ. rewrite !plus_IZR.
    assert (1 <= 50 / dt) by (apply div_bound; lra).
    replace ((stop + 50 - start) / dt) with ((stop - start) / dt + 50 / dt) in C2 by (field; lra).
    replace ((stop + 50 - start) / dt) with ((stop - start) / dt + 50 / dt) by (field; lra). lra. }
  lia.
Qed.
(** The value at a model step is one function of the year, which depends on neither the end year nor the other regions. *)
Lemma series_at disk uf sp ver c a values t r name x : Inv ver c -> snd (data_store disk uf sp a c) = Ok values -> 0 < a_dt a <= 20 ->
  (t < Z.to_nat (num_years (a_start a) (a_end a) (a_dt a)))%nat ->
  interp_data a values (year_at (a_start a) (a_dt a) t) r name = Ok x ->
  exists s tb ser raw u k ext f, assoc name (a_variables a) = Ok s /\ read ver disk (s_file s) = Ok tb /\ in_file tb s r = Ok ser /\
    map_result number (cells ser) = Ok raw /\ unit_label ser = VStr u /\ uf u (s_unit s) = Ok k /\
    extrapolate (map (Rmult k) raw) (years ser) extra_years = Ok ext /\ sp (years ser ++ extra_years)%list ext = Ok f /\
    x = f (year_at (a_start a) (a_dt a) t).
Proof.
  intros I O D T H. unfold data_store in O.
  pose proof (load_inv uf sp disk (data_years (a_start a) (a_end a) (a_dt a)) (a_regions a) (a_variables a) _ _ I) as A.
  destruct (load_variables _ _ _ _ _ _ c) as [c1 x1]. cbn [snd] in O. destruct A as [_ A]. rewrite A in O.
  unfold interp_data in H. apply bind_ok in H as (vals & V & H). apply bind_ok in H as (ys & Y & H).
  destruct (load_at _ _ _ _ _ _ _ _ _ O V) as (s & S & P). pose proof (values_at _ _ _ _ _ _ _ _ _ P Y) as PD.
  unfold pure_data in PD. apply bind_ok in PD as (tb & TB & PD). apply bind_ok in PD as (ser & SER & PD).
  apply convert_inv in PD as (raw & u & k & ext & f & C1 & C2 & C3 & C4 & C5 & _ & C6).
  exists s, tb, ser, raw, u, k, ext, f. repeat (split; [assumption|]).
  pose proof (step_in_grid _ _ _ _ D T) as G.
  assert (LE : List.length ys = List.length (data_years (a_start a) (a_end a) (a_dt a))) by (subst ys; apply map_length).
  pose proof (nth_arange (a_start a) (a_end a + 50) (a_dt a) t G) as N. fold (data_years (a_start a) (a_end a) (a_dt a)) in N.
  pose proof (C12_interpolation_exact_at_nodes_pf (data_years (a_start a) (a_end a) (a_dt a)) ys t
    (arange_increasing _ _ _ (proj1 D)) LE G) as E. rewrite N in E. rewrite E in H. injection H as <-.
  subst ys. rewrite (nth_indep _ 0 (f 0)) by (rewrite map_length; exact G). rewrite map_nth, N. reflexivity.
Qed.

(** *** The instance data *)
Definition scope_names : list string := ["tf"; "t"; "regions"].
Definition dsim (d d' : pdata) : Prop :=
  match d, d' with
  | ByRegion l, ByRegion l' => forall r v, In (r, v) l' -> In (r, v) l
  | ByTimeAndRegion l, ByTimeAndRegion l' => forall tr x, In (tr, x) l' -> In (tr, x) l
  | _, _ => d' = d
  end.
Lemma dsim_refl d : dsim d d.
Proof. destruct d; cbn; auto. Qed.
Definition msim (m m' : list (string * pdata)) : Prop :=
  forall k d, ~ In k scope_names -> assoc k m = Ok d -> exists d', assoc k m' = Ok d' /\ dsim d d'.
Lemma assoc_put {A} k k' (v : A) l : assoc k' (put k v l) = if String.eqb k k' then Ok v else assoc k' l.
Proof.
  destruct (String.eqb k k') eqn:E; [apply String.eqb_eq in E; subst; apply assoc_put_same|].
  apply String.eqb_neq in E. apply assoc_put_other, E.
Qed.
Lemma msim_put k d d' m m' : msim m m' -> In k scope_names \/ dsim d d' -> msim (put k d m) (put k d' m').
Proof.
  intros M D k0 d0 N H. rewrite assoc_put in H |- *. destruct (String.eqb k k0) eqn:E; [|apply M; auto].
  apply String.eqb_eq in E. subst k0. injection H as <-. exists d'. split; [reflexivity|]. destruct D; [contradiction|assumption].
Qed.
Lemma msim_update c c' : Forall2 (fun x y => fst y = fst x /\ (In (fst x) scope_names \/ dsim (snd x) (snd y))) c c' ->
  forall m m', msim m m' -> msim (update c m) (update c' m').
Proof.
  induction 1 as [|[k d] [k' d'] c c' [E D] F IH]; intros m m' M; [exact M|]. cbn [fst snd] in E, D. subst k'.
  unfold update in *. cbn [fold_left fst snd]. apply IH, msim_put; assumption.
Qed.
Lemma same_update c m m' : msim m m' -> msim (update c m) (update c m').
Proof. apply msim_update. induction c; constructor; [split; [reflexivity|right; apply dsim_refl]|assumption]. Qed.
Lemma scope_update c c' m m' k d : (forall k v, In (k, v) c' -> exists w, v = Custom w) -> c' = c -> 
  assoc k (update c m) = Ok d -> (forall w, d <> Custom w) -> assoc k (update c' m') = assoc k m'.
Proof.
  intros CU -> H N. apply assoc_update_other. intros I.
  assert (X : exists w, assoc k (update c m) = Ok (Custom w)).
  { clear H N. revert m. induction c as [|[k0 v0] c IH]; intros m; [destruct I|]. unfold update. cbn [fold_left fst snd]. fold (update c (put k0 v0 m)).
    destruct (in_dec String.string_dec k (map fst c)) as [J|J].
    - apply IH; [intros; eapply CU; right; eauto|exact J].
    - rewrite assoc_update_other by exact J. destruct I as [E|I]; [|contradiction]. cbn [fst] in E. subst k0.
      destruct (CU k v0 (or_introl eq_refl)) as [w ->]. exists w. apply assoc_put_same. }
  destruct X as [w X]. rewrite X in H. injection H as <-. apply (N w eq_refl).
Qed.

(** The "::" paths of the declarations are kept, and the computed documentation strings use kept settings only. *)
Definition doc_kept (d : doc) : bool :=
  match d with
  | Text s => if str_startswith s "::" then match after_colons s with Ok r => kept (str_split r ".") | Err _ => false end else true
  | Computed _ => true
  end.
Lemma docs_kept : forallb (fun nd => doc_kept (snd nd)) all_decls = true.
Proof. vm_compute. reflexivity. Qed.
Definition computed_same (o : oracles) (params params' : pyval) (nd : string * doc) : Prop :=
  match snd nd with
  | Text s => True
  | Computed f => forall s, f o params = Ok s -> f o params' = Ok s /\ str_startswith s "::" = false
  end.
Lemma computed_all o params params' : same_but_scope params params' -> Forall (computed_same o params params') all_decls.
Proof.
  intros SB. unfold all_decls. apply Forall_forall. intros nd I.
  assert (SLR : forall n s, slr_param_name params n = Ok s -> slr_param_name params' n = Ok s /\ str_startswith s "::" = false).
  { intros n s H. unfold slr_param_name in H |- *. apply bind_ok in H as (a & A & H). rewrite (config_kept _ _ SB _ _ A eq_refl). cbn [bind].
    split; [exact H|]. injection H as <-. reflexivity. }
  assert (T : forall (x : string * doc), (match snd x with Text _ => True | Computed _ => False end) -> computed_same o params params' x).
  { intros [n [s|f]] X; [exact Logic.I|destruct X]. }
  unfold base_params, emissions_params, slr_params, coacch_params, mitigation_params, notrade_params, globalcostpool_params,
    notransfer_params, effort_params, cobbdouglas_params, inequal_params, objective_params in I.
  cbn [app map In] in I.
  repeat (destruct I as [<-|I]; [first [apply T; exact Logic.I | unfold computed_same; cbn [snd]; intros s H; try (apply SLR; exact H)]|]); [..|destruct I].
  all: apply bind_ok in H as (q & Q & H); rewrite (config_kept _ _ SB _ _ Q eq_refl); cbn [bind]; first [apply SLR; exact H|split; [exact H|injection H as <-; reflexivity]].
Qed.

Lemma map_result_in {A B} (f : A -> result B) l : forall l' y, map_result f l = Ok l' -> In y l' -> exists x, In x l /\ f x = Ok y.
Proof.
  induction l as [|a l IH]; intros l' y H I; cbn [map_result] in H; [injection H as <-; destruct I|].
  apply bind_ok in H as (b & B1 & H). apply bind_ok in H as (l2 & H2 & H). injection H as <-. destruct I as [<-|I].
  - exists a. split; [left; reflexivity|exact B1].
  - destruct (IH _ _ H2 I) as (x & X1 & X2). exists x. split; [right|]; auto.
Qed.
Lemma map_result_all {A B} (f : A -> result B) l : forall l' x, map_result f l = Ok l' -> In x l -> exists y, In y l' /\ f x = Ok y.
Proof.
  induction l as [|a l IH]; intros l' x H I; cbn [map_result] in H; [destruct I|].
  apply bind_ok in H as (b & B1 & H). apply bind_ok in H as (l2 & H2 & H). injection H as <-. destruct I as [<-|I].
  - exists b. split; [left; reflexivity|exact B1].
  - destruct (IH _ _ H2 I) as (y & Y1 & Y2). exists y. split; [right|]; auto.
Qed.

Section Data.
  Variables (o : oracles) (tree : ptree) (params params' : pyval).
  Hypothesis SB : same_but_scope params params'.
  Variables reg reg' : string -> string -> result (list (string * pyval)).
  Variables ser ser' : R -> string -> string -> result R.
  Variables (s d : R) (n n' : Z) (regs regs' : list string).
  Hypothesis REG : forall cat nm l l', reg cat nm = Ok l -> reg' cat nm = Ok l' -> dsim (ByRegion l) (ByRegion l').
  Hypothesis SER : forall t r var x x', (t < Z.to_nat n)%nat -> (t < Z.to_nat n')%nat -> In r regs -> In r regs' ->
    ser (year_at s d t) r var = Ok x -> ser' (year_at s d t) r var = Ok x' -> x' = x.
  Hypothesis NN : (Z.to_nat n' <= Z.to_nat n)%nat.
  Hypothesis RR : forall r, In r regs' -> In r regs.

  Lemma series_sim var l l' : time_regional ser s d n regs var = Ok l -> time_regional ser' s d n' regs' var = Ok l' ->
    dsim (ByTimeAndRegion l) (ByTimeAndRegion l').
  Proof.
    unfold time_regional. intros H H' [t r] x I. destruct (map_result_in _ _ _ _ H' I) as ([t0 r0] & P & X). cbn [fst snd] in X.
    apply bind_ok in X as (y & Y & X). injection X as <- <- <-. apply in_prod_iff in P as [P1 P2]. apply in_seq in P1.
    assert (Q : In (t0, r0) (list_prod (seq 0 (Z.to_nat n)) regs)) by (apply in_prod; [apply in_seq; lia|auto]).
    destruct (map_result_all _ _ _ _ H Q) as (z & Z1 & Z2). cbn [fst snd] in Z2. apply bind_ok in Z2 as (w & W & Z2). injection Z2 as <-.
    rewrite (SER t0 r0 var w y); auto; lia.
  Qed.
  Lemma scalar_same keys v v' : kept keys = true -> scalar_value o tree params keys = Ok v -> scalar_value o tree params' keys = Ok v' -> v' = v.
  Proof.
    unfold scalar_value. intros K H H'. apply bind_ok in H as (x & X & H). rewrite (config_kept _ _ SB _ _ X K) in H'. cbn [bind] in H'. congruence.
  Qed.
  Definition osim (v v' : option pdata) : Prop :=
    match v, v' with Some x, Some x' => dsim x x' | None, None => True | _, _ => False end.
  Lemma value_sim t v v' : (str_startswith t "::" = true -> exists r, after_colons t = Ok r /\ kept (str_split r ".") = true) ->
    value_for o tree params reg ser s d n regs t = Ok v -> value_for o tree params' reg' ser' s d n' regs' t = Ok v' -> osim v v'.
  Proof.
    unfold value_for. intros K H H'. destruct (str_startswith t "::").
    - destruct (K eq_refl) as (r & R1 & R2). rewrite R1 in H, H'. cbn [bind] in H, H'.
      apply bind_ok in H as (x & X & H). apply bind_ok in H' as (x' & X' & H'). injection H as <-. injection H' as <-.
      cbn. rewrite (scalar_same _ _ _ R2 X X'). reflexivity.
    - destruct (str_startswith t "regional::").
      + apply bind_ok in H as (r & R1 & H). rewrite R1 in H'. cbn [bind] in H'. apply bind_ok in H as (cn & CN & H). rewrite CN in H'. cbn [bind] in H'.
        apply bind_ok in H as (x & X & H). apply bind_ok in H' as (x' & X' & H'). injection H as <-. injection H' as <-.
        exact (REG _ _ _ _ X X').
      + destruct (str_startswith t "timeandregional::"); [|injection H as <-; injection H' as <-; exact Logic.I].
        apply bind_ok in H as (r & R1 & H). rewrite R1 in H'. cbn [bind] in H'.
        apply bind_ok in H as (x & X & H). apply bind_ok in H' as (x' & X' & H'). injection H as <-. injection H' as <-.
        exact (series_sim _ _ _ X X').
  Qed.
  Lemma assigned_sim c decls m m' : model_params c = Ok decls ->
    fold_result (assign o tree params reg ser s d n regs) decls [] = Ok m ->
    fold_result (assign o tree params' reg' ser' s d n' regs') decls [] = Ok m' -> msim m m'.
  Proof.
    intros MP H H' k x N A. pose proof (model_params_nodup _ _ MP) as ND.
    destruct (assign_all _ _ _ _ _ _ _ _ _ _ _ _ ND H) as [A1 A2]. destruct (assign_all _ _ _ _ _ _ _ _ _ _ _ _ ND H') as [B1 B2].
    destruct (in_dec String.string_dec k (map fst decls)) as [I|I]; [|rewrite (A1 k I) in A; discriminate A].
    apply in_map_iff in I as ([k0 dc] & E & I). cbn [fst] in E. subst k0.
    destruct (A2 _ _ I) as (t & v & T & V & W). destruct (B2 _ _ I) as (t' & v' & T' & V' & W').
    pose proof (model_params_sub _ _ _ MP I) as IA.
    assert (TT : t' = t /\ (str_startswith t "::" = true -> exists r, after_colons t = Ok r /\ kept (str_split r ".") = true)).
    { pose proof (computed_all o params params' SB) as C. rewrite Forall_forall in C. specialize (C _ IA). unfold computed_same in C. cbn [snd] in C.
      pose proof docs_kept as DK. rewrite forallb_forall in DK. specialize (DK _ IA). cbn [snd] in DK. unfold doc_kept in DK.
      destruct dc as [w|f]; cbn [doc_text] in T, T'.
      - injection T as <-. injection T' as <-. split; [reflexivity|]. intros S. rewrite S in DK. destruct (after_colons w) as [r|]; [eauto|discriminate DK].
      - destruct (C _ T) as [C1 C2]. rewrite C1 in T'. injection T' as <-. split; [reflexivity|]. intros S. congruence. }
    destruct TT as [-> K]. pose proof (value_sim _ _ _ K V V') as OS. unfold osim in OS.
    destruct v as [y|], v' as [y'|]; try destruct OS.
    - rewrite W in A. injection A as <-. eauto.
    - rewrite W in A. discriminate A.
  Qed.
  Lemma custom_same c c' : custom_mapping params = Ok c -> custom_mapping params' = Ok c' -> c' = c /\ forall k v, In (k, v) c -> exists w, v = Custom w.
  Proof.
    unfold custom_mapping. intros H H'. apply bind_ok in H as (x & X & H). rewrite (config_kept _ _ SB _ _ X eq_refl) in H'. cbn [bind] in H'.
    assert (c' = c) by congruence. subst c'. split; [reflexivity|]. destruct x as [| | | | |l|dd]; try discriminate H.
    destruct (dget dd (KStr "custom_mapping")) as [y|]; [|injection H as <-; intros k v []].
    destruct y as [| | | | | |cc]; try discriminate H. injection H as <-. intros k v I. apply in_flat_map in I as ([[k0|z] v0] & _ & I); cbn [fst snd] in I.
    - destruct I as [E|[]]. injection E as _ <-. eauto.
    - destruct I.
  Qed.
  Lemma everywhere_sim v : dsim (everywhere regs v) (everywhere regs' v).
  Proof. unfold everywhere. intros r w I. apply in_map_iff in I as (r0 & E & I). injection E as <- <-. apply in_map_iff. exists r0. auto. Qed.
  Lemma coacch_sim c c' : instance_coacch o params reg regs = Ok c -> instance_coacch o params' reg' regs' = Ok c' ->
    Forall2 (fun x y => fst y = fst x /\ (In (fst x) scope_names \/ dsim (snd x) (snd y))) c c' /\
    (forall k, In k (map fst c') -> ~ In k scope_names).
  Proof.
    unfold instance_coacch. intros H H'. apply bind_ok in H as (q & Q & H). apply bind_ok in H' as (q' & Q' & H').
    assert (QQ : q' = q).
    { pose proof (sb_rest _ _ SB ["economics"; "damages"; "quantile"] eq_refl) as L.
      destruct (config params ["economics"; "damages"; "quantile"]) as [x|x] eqn:X.
      - rewrite (config_kept _ _ SB _ _ X eq_refl) in Q'. congruence.
      - destruct (config params' ["economics"; "damages"; "quantile"]) as [x'|x'] eqn:X'.
        + rewrite (config_kept' _ _ SB ["economics"; "damages"; "quantile"] _ eq_refl X') in X. discriminate X.
        + destruct x; try discriminate Q; destruct x'; try discriminate Q'; congruence. }
    subst q'. apply bind_ok in H as (comb & C1 & H). rewrite (config_kept _ _ SB _ _ C1 eq_refl) in H'. cbn [bind] in H'.
    apply bind_ok in H as (ad & A1 & H). rewrite (config_kept _ _ SB _ _ A1 eq_refl) in H'. cbn [bind] in H'. cbv zeta in H, H'.
    destruct (py_truth comb).
    - apply bind_ok in H as (b1 & B1 & H). apply bind_ok in H as (b2 & B2 & H). apply bind_ok in H' as (b1' & B1' & H'). apply bind_ok in H' as (b2' & B2' & H').
      injection H as <-. injection H' as <-. split.
      + repeat (apply Forall2_cons; [split; [reflexivity|right; cbn [snd]; first [apply everywhere_sim | eapply REG; eassumption]]|]). apply Forall2_nil.
      + cbn [map fst]. intros k I J. unfold scope_names in J. cbn [In] in I, J. destruct J as [<-|[<-|[<-|[]]]];
          repeat (destruct I as [I|I]; [discriminate I|]); destruct I.
    - injection H as <-. injection H' as <-. split; [constructor|]. intros k [].
  Qed.

  Lemma data_sim c decls st dt m m' : model_params c = Ok decls ->
    instance_data o tree params reg ser s d n regs decls st dt = Ok m ->
    instance_data o tree params' reg' ser' s d n' regs' decls st dt = Ok m' ->
    msim m m' /\ ((exists v, assoc "tf" m = Ok (Scalar v)) -> assoc "tf" m' = Ok (Scalar (VInt (n' - 1)))) /\
    ((exists l, assoc "regions" m = Ok (Names l)) -> assoc "regions" m' = Ok (Names regs')).
  Proof.
    intros MP H H'. unfold instance_data in H, H'.
    apply bind_ok in H as (dm & DM & H). rewrite (config_kept _ _ SB _ _ DM eq_refl) in H'. cbn [bind] in H'.
    apply bind_ok in H as (m1 & M1 & H). apply bind_ok in H' as (m1' & M1' & H').
    unfold instance_main in M1, M1'. apply bind_ok in M1 as (a & A & M1). apply bind_ok in M1' as (a' & A' & M1').
    apply bind_ok in M1 as (cu & CU & M1). apply bind_ok in M1' as (cu' & CU' & M1'). apply Ok_inj in M1, M1'.
    destruct (custom_same _ _ CU CU') as [-> CC].
    pose proof (assigned_sim _ _ _ _ MP A A') as S0.
    assert (S1 : msim (update (manual s d n regs st dt) a) (update (manual s d n' regs' st dt) a')).
    { apply msim_update; [|exact S0]. unfold manual.
      repeat (apply Forall2_cons; [split; [reflexivity|]; cbn [fst snd]; first [right; apply dsim_refl|left; cbn; tauto]|]). apply Forall2_nil. }
    assert (S2 : msim m1 m1') by (subst m1 m1'; apply same_update, S1).
    assert (N0 : NoDup (map fst (manual s d n' regs' st dt))) by (apply nodup_str_ok; reflexivity).
    assert (T1 : (exists v, assoc "tf" m1 = Ok (Scalar v)) -> assoc "tf" m1' = Ok (Scalar (VInt (n' - 1)))).
    { intros [v V]. subst m1 m1'. rewrite (scope_update cu cu _ (update (manual s d n' regs' st dt) a') "tf" _ CC eq_refl V) by discriminate.
      apply assoc_update_in; [exact N0|]. unfold manual. cbn [In]. auto. }
    assert (R1 : (exists l, assoc "regions" m1 = Ok (Names l)) -> assoc "regions" m1' = Ok (Names regs')).
    { intros [v V]. subst m1 m1'. rewrite (scope_update cu cu _ (update (manual s d n' regs' st dt) a') "regions" _ CC eq_refl V) by discriminate.
      apply assoc_update_in; [exact N0|]. unfold manual. cbn [In]. auto 10. }
    destruct (py_eqb dm (VStr "COACCH")).
    - apply bind_ok in H as (co & CO & H). apply bind_ok in H' as (co' & CO' & H'). injection H as <-. injection H' as <-.
      destruct (coacch_sim _ _ CO CO') as [F G]. split; [apply msim_update; assumption|].
      assert (FF : map fst co' = map fst co) by (clear - F; induction F as [|x y l l' [E _] F IH]; [reflexivity|]; cbn; rewrite E, IH; reflexivity).
      split; intros X.
      + rewrite assoc_update_other by (intros I; apply (G _ I); cbn; auto). apply T1.
        rewrite assoc_update_other in X by (rewrite <- FF; intros I; apply (G _ I); cbn; auto). exact X.
      + rewrite assoc_update_other by (intros I; apply (G _ I); cbn; auto). apply R1.
        rewrite assoc_update_other in X by (rewrite <- FF; intros I; apply (G _ I); cbn; auto). exact X.
    - injection H as <-. injection H' as <-. auto.
  Qed.
End Data.

Lemma same_self params : same_but_scope params params.
Proof. split; auto. Qed.
Lemma tf_value o tree params reg ser s d n regs c decls st dt m v : model_params c = Ok decls ->
  instance_data o tree params reg ser s d n regs decls st dt = Ok m -> assoc "tf" m = Ok (Scalar v) -> v = VInt (n - 1).
Proof.
  intros MP H V.
  destruct (data_sim o tree params params (same_self _) reg reg ser ser s d n n regs regs) with (c := c) (decls := decls) (st := st) (dt := dt) (m := m) (m' := m)
    as (_ & T & _); auto.
  - intros cat nm l l' A B. rewrite A in B. injection B as <-. apply dsim_refl.
  - intros t r var x x' _ _ _ _ A B. congruence.
  - rewrite (T (ex_intro _ v V)) in V. injection V as <-. reflexivity.
Qed.

Section Loads2.
  Variables inst inst' : instance.
  Hypothesis MS : msim (i_data inst) (i_data inst').
  Hypothesis PS : same_but_scope (i_params inst) (i_params inst').
  Lemma t_data name d : data_of inst name = Ok d -> ~ In name scope_names -> exists d', data_of inst' name = Ok d' /\ dsim d d'.
  Proof. intros H N. exact (MS name d N H). Qed.
  Lemma t_scalar name x : ~ In name scope_names -> scalar_is inst name x -> scalar_is inst' name x.
  Proof. intros N (v & D & V). destruct (t_data _ _ D N) as (d' & D' & S). cbn in S. subst d'. exists v. auto. Qed.
  Lemma t_limit name x : ~ In name scope_names -> limit_is inst name x -> limit_is inst' name x.
  Proof. intros N (v & D & V). destruct (t_data _ _ D N) as (d' & D' & S). cbn in S. subst d'. exists v. auto. Qed.
  Lemma t_flag name x : ~ In name scope_names -> flag_is inst name x -> flag_is inst' name x.
  Proof. intros N D. destruct (t_data _ _ D N) as (d' & D' & S). cbn in S. subst d'. exact D'. Qed.
  Lemma t_text name x : ~ In name scope_names -> text_is inst name x -> text_is inst' name x.
  Proof. intros N D. destruct (t_data _ _ D N) as (d' & D' & S). cbn in S. subst d'. exact D'. Qed.
  Lemma t_regional name f : ~ In name scope_names -> regional_is inst name f -> regional_is inst' name f.
  Proof.
    intros N (l & D & V). destruct (t_data _ _ D N) as (d' & D' & S). destruct d' as [| l' | | | |]; try discriminate S.
    exists l'. split; [exact D'|]. intros r v x I. apply V, S, I.
  Qed.
  Lemma t_texts name f : ~ In name scope_names -> texts_are inst name f -> texts_are inst' name f.
  Proof.
    intros N (l & D & V). destruct (t_data _ _ D N) as (d' & D' & S). destruct d' as [| l' | | | |]; try discriminate S.
    exists l'. split; [exact D'|]. intros r s I. apply V, S, I.
  Qed.
  Lemma t_series name f : ~ In name scope_names -> series_is inst name f -> series_is inst' name f.
  Proof.
    intros N (l & D & V). destruct (t_data _ _ D N) as (d' & D' & S). destruct d' as [| | l' | | |]; try discriminate S.
    exists l'. split; [exact D'|]. intros t r x I. apply V, S, I.
  Qed.
  Lemma t_module which name : module_is inst which name -> module_is inst' which name.
  Proof. unfold module_is. intros H. rewrite (sb_rest _ _ PS); [exact H|reflexivity]. Qed.
  Ltac notin := unfold scope_names; cbn; intros K; repeat (destruct K as [K|K]; [discriminate K|]); destruct K.
  Lemma t_damage prefix d : In prefix ["damage_noslr"; "damage_slr"] -> damage_is inst prefix d -> damage_is inst' prefix d.
  Proof.
    intros I (A & B & C & D & E). destruct I as [<-|[<-|[]]];
      (split; [apply t_texts; [notin|exact A]|]; split; [apply t_regional; [notin|exact B]|]; split; [apply t_regional; [notin|exact C]|];
       split; [apply t_regional; [notin|exact D]|apply t_regional; [notin|exact E]]).
  Qed.
  Lemma t_triple prefix f : In prefix ["mortality_param_oldest"; "mortality_param_older"; "mortality_param_young"] -> triple_is inst prefix f -> triple_is inst' prefix f.
  Proof.
    intros I (A & B & C). destruct I as [<-|[<-|[<-|[]]]];
      (split; [apply t_regional; [notin|exact A]|]; split; [apply t_regional; [notin|exact B]|]; apply t_regional; [notin|exact C]).
  Qed.
  Lemma t_loads p n : loads inst p -> data_of inst' "tf" = Ok (Scalar (VInt (Z.of_nat n))) -> data_of inst' "regions" = Ok (Names (i_regions inst')) ->
    loads inst' (with_regions (i_regions inst') (with_tf n p)).
  Proof.
    intros L TF RG. destruct L. constructor; unfold with_regions, with_tf; 
      cbn [beginyear dt tf regions population baseline_GDP baseline_emissions use_carbon_intensity cum_trapz T0 TCRE temperature_target perc_reversible
           budget inertia_global inertia_regional global_min_level regional_min_level non_increasing_after_2100 no_pos_after_budget_year
           dmg_module damage_scale_factor dmg_noslr dmg_slr mort_oldest mort_older mort_young MAC_gamma MAC_beta MAC_scaling rel_mitigation_costs_min_level
           LBD_rate LBD_scaling LOT_rate trade min_rel_payment_level max_rel_payment_level transfer effort_regime percapconv_year
           init_capital_factor alpha dk sr ignore_damages welfare elasmu inequal_aversion objective PRTP];
      try assumption; intros;
      first [apply t_scalar; [notin|solve [auto]] | apply t_limit; [notin|solve [auto]] | apply t_flag; [notin|assumption] | apply t_text; [notin|assumption]
            | apply t_series; [notin|assumption] | apply t_regional; [notin|assumption] | apply t_module; assumption
            | apply t_damage; [cbn; tauto|solve [auto]] | apply t_triple; [cbn; tauto|solve [auto]]].
  Qed.
End Loads2.

Lemma args_dt o disk mo uf sp c user inst : distinct_keys user -> construct o disk mo uf sp c user = Ok inst -> 0 < a_dt (i_args inst) <= 20.
Proof.
  intros DU C. destruct (construct_inv _ _ _ _ _ _ _ _ C) as (raw & rs & ch & decls & start & dt & H1 & H2 & _ & _ & _ & _ & _ & H8 & _).
  assert (A : accepted o user raw (i_params inst) (i_tree inst)) by (repeat split; assumption).
  destruct (bounded_number _ _ _ _ _ ["time"; "dt"] _ _ A ltac:(vm_compute; reflexivity)) as (dv & DL & DB).
  unfold store_args_of in H8. apply bind_ok in H8 as (v1 & _ & H8). apply bind_ok in H8 as (s1 & _ & H8).
  apply bind_ok in H8 as (v2 & _ & H8). apply bind_ok in H8 as (e1 & _ & H8). apply config_lookup in DL. rewrite DL in H8. cbn [bind] in H8.
  apply bind_ok in H8 as (d1 & D1 & H8). apply bind_ok in H8 as (v3 & _ & H8). apply bind_ok in H8 as (v4 & _ & H8). apply bind_ok in H8 as (v5 & _ & H8).
  apply Ok_inj in H8. rewrite H8. cbn [a_dt].
  destruct DB as [->|(q & Q1 & Q2 & Q3)]; [discriminate D1|]. rewrite (number_year _ _ Q1) in D1. apply Ok_inj in D1. subst d1.
  apply Qle_Rle in Q2, Q3. unfold Q2R in Q2 at 1, Q3 at 2. cbn in Q2, Q3. lra.
Qed.
Lemma read_disk uf sp disk h ver : Inv ver (after uf sp h empty_caches) ->
  (forall f t, ver f = Some t -> (fun _ => None) f = Some t \/ exists disk a, In (disk, a) h /\ disk f = Ok t) ->
  (forall d b, In (d, b) h -> d = disk) -> forall f, read ver disk f = disk f.
Proof.
  intros I V H f. unfold read. destruct (ver f) as [t|] eqn:E; [|reflexivity].
  destruct (V _ _ E) as [X|(d & b & X & Y)]; [discriminate X|]. rewrite (H _ _ X) in Y. auto.
Qed.

(** The numbers of a model whose configuration differs in the end year and the listed regions only are those of the other
    model, for its own steps and regions. *)
Lemma scope_numbers : forall o disk mo uf sp h h' user user' inst inst' p n,
  distinct_keys user -> distinct_keys user' -> (forall d b, In (d, b) (h ++ h') -> d = disk) ->
  construct o disk mo uf sp (after uf sp h empty_caches) user = Ok inst ->
  construct o disk mo uf sp (after uf sp h' empty_caches) user' = Ok inst' ->
  same_but_scope (i_params inst) (i_params inst') ->
  loads inst p -> num_years (a_start (i_args inst)) (a_end (i_args inst')) (a_dt (i_args inst)) = (Z.of_nat n + 1)%Z -> (n <= tf p)%nat ->
  loads inst' (with_regions (i_regions inst') (with_tf n p)).
Proof.
  intros o disk mo uf sp h h' user user' inst inst' p n DU DU' HH C C' SB L TF LE.
  pose proof (args_dt _ _ _ _ _ _ _ _ DU C) as DT. pose proof (args_dt _ _ _ _ _ _ _ _ DU' C') as DT'.
  destruct (construct_inv _ _ _ _ _ _ _ _ C) as (raw & rs & ch & decls & start & dt & H1 & H2 & H3 & (l & H4 & H4') & H5 & H6 & H7 & H8 & H9 & H10 & H11 & H12).
  destruct (construct_inv _ _ _ _ _ _ _ _ C') as (raw' & rs' & ch' & decls' & start' & dt' & K1 & K2 & K3 & (l' & K4 & K4') & K5 & K6 & K7 & K8 & K9 & K10 & K11 & K12).
  rewrite (same_choices _ _ SB _ _ H5 K5) in K6. rewrite H6 in K6. injection K6 as <-.
  destruct (same_store _ _ SB _ _ _ H7 K7) as (S1 & S2 & S3).
  destruct (same_args _ _ SB _ _ _ _ H8 K8) as (A1 & A2 & A3 & A4 & A5).
  pose proof (same_tree _ _ _ _ _ _ _ H1 K1) as TR. rewrite TR in K12.
  rewrite (sb_rest _ _ SB ["time"; "start"] eq_refl), H10 in K10. injection K10 as <-.
  rewrite (sb_rest _ _ SB ["time"; "dt"] eq_refl), H11 in K11. injection K11 as <-.
  rewrite A1, A2 in K12.
  assert (RR : forall r, In r (i_regions inst') -> In r (i_regions inst) /\ exists e, lookup (i_params inst') ["regions"; r] = Some e).
  { intros r R. rewrite K4' in R. apply (listed _ _ _ _ K3 K4) in R as [e E]. split; [|eauto]. rewrite H4'. apply (listed _ _ _ _ H3 H4).
    exists e. apply (sb_regions _ _ SB), E. }
  destruct (ld_dt _ _ L) as (dv & _). pose proof (ld_tf _ _ L) as LT. unfold data_of in LT.
  pose proof (tf_value _ _ _ _ _ _ _ _ _ _ _ _ _ _ _ H6 H12 LT) as N1.
  injection N1 as N1.
  destruct (after_inv uf sp h _ _ Inv_empty) as (ver & I & _ & V). destruct (after_inv uf sp h' _ _ Inv_empty) as (ver' & I' & _ & V').
  assert (RD : forall f, read ver disk f = disk f) by (eapply read_disk; eauto; intros; eapply HH; apply in_or_app; eauto).
  assert (RD' : forall f, read ver' disk f = disk f) by (eapply read_disk; eauto; intros; eapply HH; apply in_or_app; eauto).
  assert (X : msim (i_data inst) (i_data inst') /\ ((exists v, assoc "tf" (i_data inst) = Ok (Scalar v)) ->
      assoc "tf" (i_data inst') = Ok (Scalar (VInt (num_years (a_start (i_args inst)) (a_end (i_args inst')) (a_dt (i_args inst)) - 1)))) /\
    ((exists l, assoc "regions" (i_data inst) = Ok (Names l)) -> assoc "regions" (i_data inst') = Ok (Names (i_regions inst')))).
  { eapply data_sim; [exact SB| | | | |exact H6|exact H12|exact K12].
    - cbv beta. intros cat nm l0 l0' G G' r v IN. destruct (get_in _ _ _ _ _ _ _ _ G' IN) as [R R'].
      destruct (RR r R) as [R0 [e E]]. destruct (get_all _ _ _ _ _ _ _ G R0) as (w & W1 & W2).
      rewrite (same_regional _ _ SB _ _ _ _ _ _ _ _ _ S1 S2 S3 E W2 R'). exact W1.
    - cbv beta. intros t r var x x' T T' R R' X X'. rewrite <- A1, <- A2 in X', T'.
      destruct (series_at _ _ _ _ _ _ _ _ _ _ _ I H9 DT T X) as (s & tb & se & rw & u & k & ext & f & E1 & E2 & E3 & E4 & E5 & E6 & E7 & E8 & E9).
      destruct (series_at _ _ _ _ _ _ _ _ _ _ _ I' K9 DT' T' X') as (s' & tb' & se' & rw' & u' & k' & ext' & f' & F1 & F2 & F3 & F4 & F5 & F6 & F7 & F8 & F9).
      rewrite A3, E1 in F1. injection F1 as <-. rewrite RD in E2. rewrite RD', E2 in F2. injection F2 as <-. rewrite E3 in F3. injection F3 as <-.
      rewrite E4 in F4. injection F4 as <-. rewrite E5 in F5. injection F5 as <-. rewrite E6 in F6. injection F6 as <-. rewrite E7 in F7. injection F7 as <-.
      rewrite E8 in F8. injection F8 as <-. rewrite F9, E9, A1, A2. reflexivity.
    - lia.
    - intros r R. apply (RR r R). }
  destruct X as (MS & TG & RG). apply (t_loads inst inst' MS SB); auto.
  { unfold data_of. rewrite (TG (ex_intro _ _ LT)), TF. repeat f_equal. lia. }
  unfold data_of. apply RG. exists (regions p). exact (ld_regions _ _ L).
Qed.
