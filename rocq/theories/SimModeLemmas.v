(** C47: simulation mode. *)
From Coq Require Import Lra Lia.
From Verif Require Import ModelFacts ModelSpec Build BuildFacts BuildLemmas VarFacts SimMode.
Set Bullet Behavior "Strict Subproofs".
Open Scope R_scope.

Lemma find_var_spec p name w : find_var p name = Some w -> vname w = name /\ declared p w = true.
Proof.
  unfold find_var, variables. intros H. apply find_some in H as [A B]. apply String.eqb_eq in B.
  apply filter_In in A as [_ A]. auto.
Qed.
Lemma vname_find w : find (fun w' => String.eqb (vname w') (vname w)) all_vars = Some w.
Proof. destruct w as [g|x]; [destruct g|destruct x]; reflexivity. Qed.
Lemma vname_inj a b : vname a = vname b -> a = b.
Proof. intros H. pose proof (vname_find a) as A. rewrite H, vname_find in A. injection A as ->. reflexivity. Qed.
Lemma variables_spec p w : In w (variables p) <-> declared p w = true.
Proof.
  unfold variables. rewrite filter_In. split; [tauto|]. intros H. split; [|exact H].
  apply (find_some _ _ (vname_find w)).
Qed.
Lemma find_var_complete p w : declared p w = true -> find_var p (vname w) = Some w.
Proof.
  intros H. unfold find_var. destruct (find _ _) as [w'|] eqn:E.
  - apply find_some in E as [_ E]. apply String.eqb_eq in E. f_equal. apply vname_inj; auto.
  - exfalso. apply variables_spec in H. apply (find_none _ _ E) in H. rewrite String.eqb_refl in H. discriminate.
Qed.
Lemma map_result_Forall2 {A B} (f : A -> result B) l l' : map_result f l = Ok l' -> Forall2 (fun a b => f a = Ok b) l l'.
Proof.
  revert l'. induction l as [|a l IH]; cbn [map_result]; intros l' H.
  - injection H as <-. constructor.
  - destruct (f a) eqn:E; [|discriminate]. cbn [bind] in H. destruct (map_result f l) eqn:E2; [|discriminate]. cbn [bind] in H.
    injection H as <-. constructor; auto.
Qed.
Lemma check_all_spec l : check_all l = Ok tt <-> forall o, In o l -> check_rule o = Ok tt.
Proof.
  induction l as [|o l IH]; cbn [check_all].
  - split; [intros _ o []|reflexivity].
  - destruct (check_rule o) as [[]|] eqn:E; cbn [bind].
    + rewrite IH. split; [intros H o' [<-|K]; auto|intros H o' K; apply H; right; auto].
    + split; [discriminate|]. intros H. rewrite <- E. apply H. left; reflexivity.
Qed.

Definition comp_in (l : list (string * pyomo_con)) (s : string) : Prop := In s (map fst l).
Lemma is_component_spec l s : is_component l s = true <-> comp_in l s.
Proof.
  unfold is_component, comp_in. rewrite existsb_exists. split.
  - intros [x [A B]]. apply String.eqb_eq in B. subst. apply in_map; auto.
  - intros H. apply in_map_iff in H as [x [A B]]. exists x. split; auto. apply String.eqb_eq; auto.
Qed.
Lemma deactivate_spec comps names : forall active l, deactivate comps names active = Ok l ->
  (forall d, In d names -> comp_in comps ("constraint_" ++ d)%string) /\
  (forall nc, In nc l <-> In nc active /\ forall d, In d names -> fst nc <> ("constraint_" ++ d)%string).
Proof.
  induction names as [|d names IH]; cbn [deactivate]; intros active l H.
  - injection H as <-. split; [intros d []|]. intros nc. split; [intros; split; auto; intros d []|tauto].
  - destruct (is_component comps _) eqn:E; [|discriminate]. apply is_component_spec in E.
    apply IH in H as [A B]. split.
    + intros d' [<-|K]; auto.
    + intros nc. rewrite B, filter_In. split.
      * intros ((I & N) & K). split; [exact I|]. intros d' [<-|D]; auto. intros Q. rewrite Q, String.eqb_refl in N. discriminate.
      * intros (I & K). split; [split; [exact I|]|].
        -- apply negb_true_iff, String.eqb_neq. apply K; left; reflexivity.
        -- intros d' D. apply K; right; auto.
Qed.
Lemma deactivate_ok comps names : forall active, (forall d, In d names -> comp_in comps ("constraint_" ++ d)%string) ->
  exists l, deactivate comps names active = Ok l.
Proof.
  induction names as [|d names IH]; cbn [deactivate]; intros active H; [eauto|].
  assert (E : is_component comps ("constraint_" ++ d)%string = true) by (apply is_component_spec, H; left; reflexivity).
  rewrite E. apply IH. intros d' K. apply H; right; auto.
Qed.

(** what create_instance returns *)
Lemma build_comps extra n p comps : build extra n p = Ok comps -> create_abstract_model extra n p = Ok comps.
Proof.
  unfold build. destruct (create_abstract_model extra n p) as [c|]; [|discriminate]. cbn [bind].
  destruct (check_params_div p) as [|]; [|discriminate]. cbn [bind].
  destruct (check_all _) as [|]; [|discriminate]. cbn [bind]. intros H; injection H as <-. reflexivity.
Qed.
Lemma create_sim extra n m p s active : create_instance p extra n m (Some s) = Ok active ->
  exists comps cs added, build extra n p = Ok comps /\ fixed_constraints p s = Ok cs /\
    add_all extra m (map fst comps) (flat_map to_pyomo cs) = Ok added /\
    (forall o, In o (flat_map (fun nc => outputs (tf p) (regions p) (snd nc)) added) -> check_rule o = Ok tt) /\
    deactivate (comps ++ added)%list (sim_deactivated s) (comps ++ added)%list = Ok active.
Proof.
  unfold create_instance. destruct (build extra n p) as [comps|] eqn:B; [|discriminate]. cbn [bind].
  unfold set_simulation_mode. destruct (fixed_constraints p s) as [cs|] eqn:F; [|discriminate]. cbn [bind].
  destruct (add_all _ _ _ _) as [added|] eqn:A; [|discriminate]. cbn [bind].
  destruct (check_all _) as [[]|] eqn:C; [|discriminate]. cbn [bind]. intros D.
  exists comps, cs, added. pose proof (proj1 (check_all_spec _) C). auto 10.
Qed.
(** auto-generated names of the added constraints *)
Lemma add_all_numbered extra cs : (forall c, In c cs -> fst c = None) -> forall n have l, add_all extra n have cs = Ok l ->
  forall nc, In nc l -> exists k, (n <= k)%nat /\ fst nc = ("constraint_" ++ str_nat k)%string.
Proof.
  induction cs as [|[nm c] cs IH]; intros N n have l H nc K; cbn [add_all] in H.
  - injection H as <-. destruct K.
  - destruct (existsb _ have); [discriminate|]. destruct (add_all extra _ _ cs) as [l'|] eqn:E; [|discriminate]. cbn [bind] in H.
    injection H as <-. destruct K as [<-|K].
    + exists n. split; [lia|]. assert (nm = None) by (apply (N (nm, c)); left; reflexivity). subst. reflexivity.
    + destruct (IH (fun c Hc => N c (or_intror Hc)) _ _ _ E nc K) as (k & A & B). exists k. split; [lia|exact B].
Qed.
Lemma fixed_cases p nm data cs : fixed_data_constraint p (nm, data) = Ok cs ->
  (exists x, find_var p nm = Some (Rv x) /\ cs =
     [ RegionalC None (fun t r => fixed_rule (EV x t r) (data r) (year p t) true);
       RegionalC None (fun t r => fixed_rule (EV x t r) (data r) (year p t) false) ]) \/
  (exists g, find_var p nm = Some (Gv g) /\ cs =
     [ GlobalC None (fun t => fixed_rule (EG g t) (data "Global"%string) (year p t) true);
       GlobalC None (fun t => fixed_rule (EG g t) (data "Global"%string) (year p t) false) ]).
Proof.
  unfold fixed_data_constraint. generalize (find_var p nm). intros [[g|x]|] H; [right|left|discriminate]; injection H as <-; eauto.
Qed.
Lemma fixed_unnamed1 p e cs : fixed_data_constraint p e = Ok cs -> forall k c, In k cs -> In c (to_pyomo k) -> fst c = None.
Proof.
  destruct e as [nm data]. intros H k c K C. destruct (fixed_cases _ _ _ _ H) as [(x & _ & ->)|(g & _ & ->)];
    destruct K as [<-|[<-|[]]]; destruct C as [<-|[]]; reflexivity.
Qed.
Lemma fixed_unnamed p s cs : fixed_constraints p s = Ok cs -> forall c, In c (flat_map to_pyomo cs) -> fst c = None.
Proof.
  unfold fixed_constraints. destruct (map_result _ _) as [ls|] eqn:E; [|discriminate]. cbn [bind]. intros H; injection H as <-.
  intros c Hc. apply in_flat_map in Hc as (k & K & Hc). apply in_concat in K as (l & L & K).
  apply map_result_Forall2 in E. induction E as [|e b l0 ls0 E EE IH]; [destruct L|].
  destruct L as [->|L]; [|auto]. eapply fixed_unnamed1; eauto.
Qed.
Lemma Forall2_In_r {A B} (P : A -> B -> Prop) l l' b : Forall2 P l l' -> In b l' -> exists a, In a l /\ P a b.
Proof. induction 1 as [|x y l l' Q F IH]; intros [].
  - subst. exists x. split; [left; reflexivity|exact Q].
  - destruct (IH H) as (a & A1 & A2). exists a. split; [right; exact A1|exact A2].
Qed.
Lemma Forall2_In_l {A B} (P : A -> B -> Prop) l l' a : Forall2 P l l' -> In a l -> exists b, In b l' /\ P a b.
Proof. induction 1 as [|x y l l' Q F IH]; intros [].
  - subst. exists y. split; [left; reflexivity|exact Q].
  - destruct (IH H) as (b & A1 & A2). exists b. split; [right; exact A1|exact A2].
Qed.

(** the rules of a fixed variable are among the active ones *)
Lemma fixed_active extra n m p s active nm data c :
  create_instance p extra n m (Some s) = Ok active -> In (nm, data) (sim_fixed s) ->
  (forall k, ~ In (str_nat k) (sim_deactivated s)) ->
  (forall cs, fixed_data_constraint p (nm, data) = Ok cs -> exists c', In c' cs /\ In (None, c) (to_pyomo c')) ->
  exists nc, In nc active /\ snd nc = c /\ (forall o, In o (outputs (tf p) (regions p) c) -> check_rule o = Ok tt).
Proof.
  intros H I D C. apply create_sim in H as (comps & cs & added & B & F & A & K & Z).
  pose proof (fixed_unnamed _ _ _ F) as U.
  assert (G : In (None, c) (flat_map to_pyomo cs)).
  { unfold fixed_constraints in F. destruct (map_result _ _) as [ls|] eqn:E; [|discriminate]. cbn [bind] in F. injection F as <-.
    apply map_result_Forall2 in E. destruct (Forall2_In_l _ _ _ _ E I) as (l & L & E').
    destruct (C l E') as (c' & C1 & C2). apply in_flat_map. exists c'. split; [apply in_concat; eauto|exact C2]. }
  pose proof (add_all_sound _ _ _ _ _ A) as (_ & _ & S).
  destruct (Forall2_In_r _ _ _ _ S G) as (nc & N1 & N2 & _). cbn [snd] in N2.
  exists nc. split; [|split; [exact N2|]].
  - apply (proj2 (deactivate_spec _ _ _ _ Z)). split; [apply in_or_app; right; exact N1|].
    intros d Hd Q. destruct (add_all_numbered _ _ U _ _ _ A nc N1) as (k & _ & N3). rewrite N3 in Q. apply app_inj in Q.
    apply (D k). rewrite Q. exact Hd.
  - intros o Ho. apply K. apply in_flat_map. exists nc. split; [exact N1|]. rewrite N2. exact Ho.
Qed.

(** ** Theorems *)
Lemma C47_fixed_regional_variable_pf : forall extra n m p s active v x data t r,
  create_instance p extra n m (Some s) = Ok active -> solution_of p active v ->
  In (rname x, data) (sim_fixed s) -> (forall k, ~ In (str_nat k) (sim_deactivated s)) ->
  model_step p t -> In r (regions p) ->
  exists target, data r = Some target /\ target (year p t) - 1/1000 <= rval v x t r <= target (year p t) + 1/1000.
Proof.
  intros extra n m p s active v x data t r H [S _] I D Ht Hr.
  assert (F : exists w, find_var p (rname x) = Some w).
  { apply create_sim in H as (comps & cs & added & B & F & _). unfold fixed_constraints in F.
    destruct (map_result _ _) as [ls|] eqn:E; [|discriminate]. apply map_result_Forall2 in E.
    destruct (Forall2_In_l _ _ _ _ E I) as (l & L & E'). destruct (fixed_cases _ _ _ _ E') as [(w & W & _)|(w & W & _)]; rewrite W; eauto. }
  destruct F as [w F]. pose proof (find_var_spec _ _ _ F) as [W _]. change (rname x) with (vname (Rv x)) in W. apply vname_inj in W. subst w.
  assert (X : forall b o, In o (outputs (tf p) (regions p) (PCtr (fun t r => fixed_rule (EV x t r) (data r) (year p t) b))) -> sat v o /\ check_rule o = Ok tt).
  { intros b o Ho.
    destruct (fixed_active extra n m p s active (rname x) data (PCtr (fun t r => fixed_rule (EV x t r) (data r) (year p t) b)) H I D) as (nc & N1 & N2 & N3).
    - intros cs Hc. destruct (fixed_cases _ _ _ _ Hc) as [(w & W & ->)|(w & W & ->)]; rewrite F in W; [injection W as <-|discriminate W].
      destruct b; [eexists; split; [left; reflexivity|left; reflexivity]|eexists; split; [right; left; reflexivity|left; reflexivity]].
    - split; [|apply N3; exact Ho]. apply (S nc N1). rewrite N2. exact Ho. }
  assert (Y : forall b, In (fixed_rule (EV x t r) (data r) (year p t) b) (outputs (tf p) (regions p) (PCtr (fun t r => fixed_rule (EV x t r) (data r) (year p t) b)))).
  { intros b. cbn [outputs]. apply in_flat_map. exists t. split; [apply in_seq; unfold model_step in Ht; lia|].
    apply in_map_iff. exists r. auto. }
  destruct (X true _ (Y true)) as [X1 X2]. destruct (X false _ (Y false)) as [X3 _].
  destruct (data r) as [f|]; [|cbn in X2; discriminate]. exists f. split; [reflexivity|].
  destruct X1 as (_ & _ & X1). destruct X3 as (_ & _ & X3). cbn [deno] in X1, X3. unfold sim_eps in *. lra.
Qed.

Lemma C47_fixed_global_variable_pf : forall extra n m p s active v g data t,
  create_instance p extra n m (Some s) = Ok active -> solution_of p active v ->
  In (gname g, data) (sim_fixed s) -> (forall k, ~ In (str_nat k) (sim_deactivated s)) ->
  model_step p t ->
  exists target, data "Global"%string = Some target /\ target (year p t) - 1/1000 <= gval v g t <= target (year p t) + 1/1000.
Proof.
  intros extra n m p s active v x data t H [S _] I D Ht.
  assert (F : exists w, find_var p (gname x) = Some w).
  { apply create_sim in H as (comps & cs & added & B & F & _). unfold fixed_constraints in F.
    destruct (map_result _ _) as [ls|] eqn:E; [|discriminate]. apply map_result_Forall2 in E.
    destruct (Forall2_In_l _ _ _ _ E I) as (l & L & E'). destruct (fixed_cases _ _ _ _ E') as [(w & W & _)|(w & W & _)]; rewrite W; eauto. }
  destruct F as [w F]. pose proof (find_var_spec _ _ _ F) as [W _]. change (gname x) with (vname (Gv x)) in W. apply vname_inj in W. subst w.
  assert (X : forall b o, In o (outputs (tf p) (regions p) (PCt (fun t => fixed_rule (EG x t) (data "Global"%string) (year p t) b))) -> sat v o /\ check_rule o = Ok tt).
  { intros b o Ho.
    destruct (fixed_active extra n m p s active (gname x) data (PCt (fun t => fixed_rule (EG x t) (data "Global"%string) (year p t) b)) H I D) as (nc & N1 & N2 & N3).
    - intros cs Hc. destruct (fixed_cases _ _ _ _ Hc) as [(w & W & ->)|(w & W & ->)]; rewrite F in W; [discriminate W|injection W as <-].
      destruct b; [eexists; split; [left; reflexivity|left; reflexivity]|eexists; split; [right; left; reflexivity|left; reflexivity]].
    - split; [|apply N3; exact Ho]. apply (S nc N1). rewrite N2. exact Ho. }
  assert (Y : forall b, In (fixed_rule (EG x t) (data "Global"%string) (year p t) b) (outputs (tf p) (regions p) (PCt (fun t => fixed_rule (EG x t) (data "Global"%string) (year p t) b)))).
  { intros b. cbn [outputs]. apply in_map_iff. exists t. split; [reflexivity|apply in_seq; unfold model_step in Ht; lia]. }
  destruct (X true _ (Y true)) as [X1 X2]. destruct (X false _ (Y false)) as [X3 _].
  destruct (data "Global"%string) as [f|]; [|cbn in X2; discriminate]. exists f. split; [reflexivity|].
  destruct X1 as (_ & _ & X1). destruct X3 as (_ & _ & X3). cbn [deno] in X1, X3. unfold sim_eps in *. lra.
Qed.

(** The active constraints are the model's own and the added ones, minus the deactivated names. *)
Lemma C47_deactivation_exact_pf : forall extra n m p s active,
  create_instance p extra n m (Some s) = Ok active ->
  exists model added, build extra n p = Ok model /\
    (forall nc, In nc added -> exists k, fst nc = ("constraint_" ++ str_nat k)%string) /\
    (forall d, In d (sim_deactivated s) -> In ("constraint_" ++ d)%string (map fst (model ++ added)%list)) /\
    (forall nc, In nc active <->
       In nc (model ++ added)%list /\ forall d, In d (sim_deactivated s) -> fst nc <> ("constraint_" ++ d)%string) /\
    (forall nc, In nc model -> (forall d, In d (sim_deactivated s) -> fst nc <> ("constraint_" ++ d)%string) ->
       forall v, solution_of p active v -> con_holds (tf p) (regions p) v (snd nc)).
Proof.
  intros extra n m p s active H. apply create_sim in H as (comps & cs & added & B & F & A & K & Z).
  exists comps, added. destruct (deactivate_spec _ _ _ _ Z) as [D1 D2]. split; [exact B|].
  split. { intros nc Hn. destruct (add_all_numbered _ _ (fixed_unnamed _ _ _ F) _ _ _ A nc Hn) as (k & _ & E). eauto. }
  split; [exact D1|]. split; [exact D2|].
  intros nc Hn Hd v [S _]. apply S. apply D2. split; [apply in_or_app; left; exact Hn|exact Hd].
Qed.

(** A name that is no constraint of the model (and no added one) is an error, not a silent no-op. *)
Lemma C47_unknown_constraint_raises_pf : forall extra n m p s d model,
  build extra n p = Ok model -> sim_fixed s = [] ->
  In d (sim_deactivated s) -> ~ In ("constraint_" ++ d)%string (map fst model) ->
  create_instance p extra n m (Some s) = Err AttributeError.
Proof.
  intros extra n m p s d model B E Hd N. unfold create_instance. rewrite B. cbn [bind].
  unfold set_simulation_mode, fixed_constraints. rewrite E. cbn [map_result bind List.concat flat_map add_all check_all].
  rewrite app_nil_r. generalize model at 2 as act. revert Hd. generalize (sim_deactivated s). intros l.
  induction l as [|x l IH]; intros Hd act; [destruct Hd|]. cbn [deactivate].
  destruct (is_component model ("constraint_" ++ x)) eqn:Q; [|reflexivity].
  destruct Hd as [->|Hd]; [|apply IH; exact Hd]. apply is_component_spec in Q. contradiction.
Qed.
Lemma C47_unknown_variable_raises_pf : forall extra n m p s name data,
  In (name, data) (sim_fixed s) -> (forall g, declared_g p g = true -> gname g <> name) ->
  (forall x, declared_r p x = true -> rname x <> name) ->
  exists e, create_instance p extra n m (Some s) = Err e.
Proof.
  intros extra n m p s name data I G X. destruct (create_instance p extra n m (Some s)) as [l|] eqn:E; [|eauto]. exfalso.
  apply create_sim in E as (comps & cs & added & B & F & _). unfold fixed_constraints in F.
  destruct (map_result _ _) as [ls|] eqn:E; [|discriminate]. apply map_result_Forall2 in E.
  destruct (Forall2_In_l _ _ _ _ E I) as (c & C & E'). destruct (fixed_cases _ _ _ _ E') as [(w & W & _)|(w & W & _)];
    apply find_var_spec in W as [W1 W2]; cbn [declared vname] in *; [apply (X w)|apply (G w)]; auto.
Qed.
(** Data that lacks a region of the model (or the row "Global") is an error. *)
Lemma C47_missing_region_raises_pf : forall extra n m p s x data r,
  In (rname x, data) (sim_fixed s) -> In r (regions p) -> data r = None ->
  exists e, create_instance p extra n m (Some s) = Err e.
Proof.
  intros extra n m p s x data r I Hr N. destruct (create_instance p extra n m (Some s)) as [l|] eqn:E; [|eauto]. exfalso.
  apply create_sim in E as (comps & cs & added & B & F & A & K & Z). unfold fixed_constraints in F.
  destruct (map_result _ _) as [ls|] eqn:E; [|discriminate]. cbn [bind] in F. injection F as <-. apply map_result_Forall2 in E.
  destruct (Forall2_In_l _ _ _ _ E I) as (c & C & E'). destruct (fixed_cases _ _ _ _ E') as [(w & W & ->)|(w & W & ->)];
    apply find_var_spec in W as [W1 W2]; change (rname x) with (vname (Rv x)) in W1; apply vname_inj in W1; [|discriminate]. injection W1 as ->.
  pose proof (add_all_sound _ _ _ _ _ A) as (_ & _ & S).
  destruct (Forall2_In_r _ _ _ (None, PCtr (fun t r => fixed_rule (EV x t r) (data r) (year p t) true)) S) as (nc & N1 & N2 & _).
  { apply in_flat_map. eexists. split; [apply in_concat; eexists; split; [exact C|left; reflexivity]|left; reflexivity]. }
  cbn [snd] in N2.
  assert (Q : check_rule (fixed_rule (EV x 0 r) (data r) (year p 0) true) = Ok tt).
  { apply K. apply in_flat_map. exists nc. split; [exact N1|]. rewrite N2. cbn [outputs]. apply in_flat_map. exists 0%nat.
    split; [apply in_seq; lia|]. apply in_map_iff. exists r. auto. }
  rewrite N in Q. discriminate Q.
Qed.

(** *** Re-running a solution *)
Lemma add_all_fresh extra n p comps : build extra n p = Ok comps -> forall nc, In nc comps ->
  exists c, In c (all_constraints p) /\ exists nm, In (nm, snd nc) (to_pyomo c).
Proof.
  intros B nc Hn. apply build_comps in B. unfold create_abstract_model in B. apply add_all_sound in B as (_ & _ & S).
  destruct (Forall2_In_l _ _ _ _ S Hn) as ([nm c] & C & E & _). cbn [snd] in E. unfold pyomo_components in C.
  apply in_flat_map in C as (k & K & C). exists k. split; [exact K|]. exists nm. rewrite E. exact C.
Qed.
Lemma C47_solution_reproduced_pf : forall extra n m p s active v,
  create_instance p extra n m (Some s) = Ok active -> feasible p v ->
  (forall name data t, In (name, data) (sim_fixed s) -> model_step p t ->
     (forall x r f, name = rname x -> In r (regions p) -> data r = Some f ->
        rval v x t r - 1/1000 <= f (year p t) <= rval v x t r + 1/1000) /\
     (forall g f, name = gname g -> data "Global"%string = Some f ->
        gval v g t - 1/1000 <= f (year p t) <= gval v g t + 1/1000)) ->
  solution_of p active v.
Proof.
  intros extra n m p s active v H [F1 F2] T. split; [|exact F2].
  intros nc Hn. apply create_sim in H as (comps & cs & added & B & F & A & K & Z).
  apply (proj2 (deactivate_spec _ _ _ _ Z)) in Hn as [Hn _]. apply in_app_or in Hn as [Hn|Hn].
  - destruct (add_all_fresh _ _ _ _ B nc Hn) as (c & C & nm & N). apply (F1 c (nm, snd nc) C N).
  - pose proof (add_all_sound _ _ _ _ _ A) as (_ & _ & S). destruct (Forall2_In_l _ _ _ _ S Hn) as ([nm c] & C & E & _). cbn [snd] in E.
    intros o Ho. pose proof Ho as Ho'. rewrite E in Ho.
    assert (R : check_rule o = Ok tt) by (apply K; apply in_flat_map; exists nc; auto).
    unfold fixed_constraints in F. destruct (map_result _ _) as [ls|] eqn:Q; [|discriminate]. cbn [bind] in F. injection F as <-.
    apply map_result_Forall2 in Q. apply in_flat_map in C as (k & C1 & C2). apply in_concat in C1 as (l & L & C1).
    destruct (Forall2_In_r _ _ _ _ Q L) as ([name data] & I & E').
    destruct (fixed_cases _ _ _ _ E') as [(x & W & ->)|(g & W & ->)]; apply find_var_spec in W as [W _]; cbn [vname] in W; symmetry in W.
    + assert (X : exists b, c = PCtr (fun t r => fixed_rule (EV x t r) (data r) (year p t) b)).
      { destruct C1 as [<-|[<-|[]]]; destruct C2 as [C2|[]]; injection C2 as _ <-; [exists true|exists false]; reflexivity. }
      destruct X as [b ->]. cbn [outputs] in Ho. apply in_flat_map in Ho as (t & Ht & Ho). apply in_map_iff in Ho as (r & <- & Hr).
      apply in_seq in Ht. assert (Ht' : model_step p t) by (unfold model_step; lia).
      destruct (data r) as [f|] eqn:D; [|discriminate R].
      pose proof (proj1 (T name data t I Ht') x r f W Hr D). unfold fixed_rule, sim_eps.
      destruct b; cbn [sat defd deno]; (split; [auto|split; [auto|]]); lra.
    + assert (X : exists b, c = PCt (fun t => fixed_rule (EG g t) (data "Global"%string) (year p t) b)).
      { destruct C1 as [<-|[<-|[]]]; destruct C2 as [C2|[]]; injection C2 as _ <-; [exists true|exists false]; reflexivity. }
      destruct X as [b ->]. cbn [outputs] in Ho. apply in_map_iff in Ho as (t & <- & Ht).
      apply in_seq in Ht. assert (Ht' : model_step p t) by (unfold model_step; lia).
      destruct (data "Global"%string) as [f|] eqn:D; [|discriminate R].
      pose proof (proj2 (T name data t I Ht') g f W D). unfold fixed_rule, sim_eps.
      destruct b; cbn [sat defd deno]; (split; [auto|split; [auto|]]); lra.
Qed.
(** Without simulation mode the instance is the plain model, whose solutions are the feasible points. *)
Lemma C47_off_is_plain_model_pf : forall extra n m p active v,
  create_instance p extra n m None = Ok active -> (solution_of p active v <-> feasible p v).
Proof.
  intros extra n m p active v H. unfold create_instance in H. destruct (build extra n p) as [comps|] eqn:B; [|discriminate].
  cbn [bind] in H. injection H as <-. split.
  - intros [S V]. split; [|exact V]. intros c nc Hc Hnc.
    apply build_comps in B. unfold create_abstract_model in B. apply add_all_sound in B as (_ & _ & F).
    assert (I : In nc (pyomo_components p)) by (apply in_flat_map; eauto).
    destruct (Forall2_In_r _ _ _ _ F I) as (a & A1 & A2 & _). rewrite <- A2. apply S; exact A1.
  - intros [S V]. split; [|exact V]. intros nc Hn. destruct (add_all_fresh _ _ _ _ B nc Hn) as (c & C & nm & N).
    apply (S c (nm, snd nc) C N).
Qed.
(** Simulation mode can always be switched on: declared variables, data for every region, known names. *)
Lemma C47_simulation_builds_pf : forall extra n p s, numeric_ranges p -> sound_data p -> usable_choices p ->
  (forall name data, In (name, data) (sim_fixed s) ->
     (exists x, name = rname x /\ declared_r p x = true /\ forall r, In r (regions p) -> data r <> None) \/
     (exists g, name = gname g /\ declared_g p g = true /\ data "Global"%string <> None)) ->
  (forall d, In d (sim_deactivated s) -> exists c con, In c (all_constraints p) /\ In (Some d, con) (to_pyomo c)) ->
  exists m0, forall m, (m0 <= m)%nat -> exists active, create_instance p extra n m (Some s) = Ok active.
Proof.
  intros extra n p s NR SD U FX DE.
  destruct (proj2 (C18_builds_iff_usable_pf extra n p NR SD) U) as [comps B].
  assert (F : exists cs, fixed_constraints p s = Ok cs /\ forall c o, In c cs -> In o (flat_map (fun nc => outputs (tf p) (regions p) (snd nc)) (to_pyomo c)) -> check_rule o = Ok tt).
  { unfold fixed_constraints. revert FX. generalize (sim_fixed s) as l. induction l as [|[name data] l IH]; intros FX; cbn [map_result bind].
    - exists []. split; [reflexivity|]. intros c o [].
    - destruct IH as (cs & E & C). { intros; apply FX; right; auto. }
      assert (X : exists c1, fixed_data_constraint p (name, data) = Ok c1 /\ forall c o, In c c1 -> In o (flat_map (fun nc => outputs (tf p) (regions p) (snd nc)) (to_pyomo c)) -> check_rule o = Ok tt).
      { destruct (FX name data (or_introl eq_refl)) as [(x & -> & X & D)|(g & -> & X & D)].
        - pose proof (find_var_complete p (Rv x) X) as W. cbn [vname] in W. cbn [fixed_data_constraint]. rewrite W.
          eexists. split; [reflexivity|]. intros c o Hc Ho.
          assert (Y : exists b, In o (outputs (tf p) (regions p) (PCtr (fun t r => fixed_rule (EV x t r) (data r) (year p t) b)))).
          { destruct Hc as [<-|[<-|[]]]; cbn [to_pyomo flat_map snd] in Ho; rewrite app_nil_r in Ho; eauto. }
          destruct Y as [b Y]. cbn [outputs] in Y. apply in_flat_map in Y as (t & _ & Y). apply in_map_iff in Y as (r & <- & Hr).
          specialize (D r Hr). destruct (data r); [|congruence]. destruct b; reflexivity.
        - pose proof (find_var_complete p (Gv g) X) as W. cbn [vname] in W. cbn [fixed_data_constraint]. rewrite W.
          eexists. split; [reflexivity|]. intros c o Hc Ho.
          assert (Y : exists b, In o (outputs (tf p) (regions p) (PCt (fun t => fixed_rule (EG g t) (data "Global"%string) (year p t) b)))).
          { destruct Hc as [<-|[<-|[]]]; cbn [to_pyomo flat_map snd] in Ho; rewrite app_nil_r in Ho; eauto. }
          destruct Y as [b Y]. cbn [outputs] in Y. apply in_map_iff in Y as (t & <- & _).
          destruct (data "Global"%string); [|congruence]. destruct b; reflexivity. }
      destruct X as (c1 & E1 & C1). rewrite E1. cbn [bind]. destruct (map_result (fixed_data_constraint p) l) as [ls|] eqn:Q; [|discriminate].
      cbn [bind] in *. injection E as <-. eexists. split; [reflexivity|]. cbn [List.concat]. intros c o Hc. apply in_app_or in Hc as [Hc|Hc]; eauto. }
  destruct F as (cs & F & FC).
  assert (HO : exists m0, have_ok m0 (map fst comps)).
  { assert (G : forall l nn have, add_all extra nn have l = Ok comps -> Forall alpha_name (named l) -> exists m0, have_ok m0 (map fst comps)).
    { clear. revert comps. intros comps l. revert comps. induction l as [|[nm c] l IH]; intros comps nn have H A; cbn [add_all] in H.
      - injection H as <-. exists 0%nat. intros s [].
      - destruct (existsb _ have); [discriminate|]. destruct (add_all _ _ _ l) as [l'|] eqn:E; [|discriminate]. cbn [bind] in H. injection H as <-.
        assert (A' : Forall alpha_name (named l)). { unfold named in *. cbn [flat_map fst] in A. destruct nm; [inversion A; auto|exact A]. }
        destruct (IH _ _ _ E A') as [m0 M]. exists (Nat.max m0 (S nn)). cbn [map fst]. intros s [<-|K].
        + destruct nm as [a|]; [left|right].
          * exists a. split; [|reflexivity]. unfold named in A. cbn [flat_map fst] in A. inversion A; auto.
          * exists nn. split; [lia|reflexivity].
        + destruct (M s K) as [?|(k & K1 & K2)]; [left; auto|right]. exists k. split; [lia|exact K2]. }
    apply build_comps in B. unfold create_abstract_model in B. apply (G _ _ _ B). apply (names_ok p). apply U. }
  destruct HO as [m0 HO]. exists m0. intros m Hm. unfold create_instance. rewrite B. cbn [bind]. unfold set_simulation_mode. rewrite F. cbn [bind].
  assert (NN : named (flat_map to_pyomo cs) = []).
  { pose proof (fixed_unnamed _ _ _ F) as N. unfold named. clear -N. induction (flat_map to_pyomo cs) as [|x l IH]; [reflexivity|].
    cbn [flat_map]. rewrite (N x (or_introl eq_refl)). cbn [app]. apply IH. intros; apply N; right; auto. }
  destruct (add_all_complete extra (flat_map to_pyomo cs) m (map fst comps)) as [added A]; try (rewrite NN; constructor).
  { intros x Hx. destruct (HO x Hx) as [?|(k & K1 & K2)]; [left; auto|right]. exists k. split; [lia|exact K2]. }
  { rewrite NN. intros x []. }
  rewrite A. cbn [bind].
  assert (CK : check_all (flat_map (fun nc => outputs (tf p) (regions p) (snd nc)) added) = Ok tt).
  { apply check_all_spec. intros o Ho. apply in_flat_map in Ho as (nc & Hn & Ho). pose proof (add_all_sound _ _ _ _ _ A) as (_ & _ & S).
    destruct (Forall2_In_l _ _ _ _ S Hn) as (x & X & E & _). apply in_flat_map in X as (c & C1 & C2). apply (FC c o C1).
    apply in_flat_map. exists x. split; [exact C2|]. rewrite <- E. exact Ho. }
  rewrite CK. cbn [bind]. apply deactivate_ok. intros d Hd. destruct (DE d Hd) as (c & con & C1 & C2).
  unfold comp_in. rewrite map_app. apply in_or_app. left.
  apply build_comps in B. unfold create_abstract_model in B. apply add_all_sound in B as (_ & _ & S).
  assert (I : In (Some d, con) (pyomo_components p)) by (apply in_flat_map; eauto).
  destruct (Forall2_In_r _ _ _ _ S I) as (nc & N1 & _ & N2). cbn [fst] in N2. rewrite <- N2. apply in_map. exact N1.
Qed.
