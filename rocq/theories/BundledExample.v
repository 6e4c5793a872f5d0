(** Non-vacuity of C57 and C58: the empty user configuration, an oracle that prints the quantiles as Python
    does, conversion factors 1 and a curve through its points. *)
From Verif Require Import PyBase NestedDict Parsers Config ConfigDefault ConfigSpec ConfigBridge TimeGrid TimeGridLemmas DataStore DataStoreLemmas
  RegionalParams Instantiate InstFacts InstantiateLemmas ConstructFacts BundledData BundledFacts BundledSigns.
From Coq Require Import QArith Qreals Permutation Reals Lra Lia.
Import ListNotations.
Open Scope string_scope.
Open Scope list_scope.

Definition py_oracles : oracles := {|
  o_repr := fun v => match v with VFloat (FFin q) => match find (fun ql => Qeq_bool (fst ql) q) quantile_labels with Some ql => snd ql | None => "?" end | _ => "?" end;
  o_pint := fun text _ => if String.eqb text "False" then Err ValueError else Ok 1%Q |}.
Lemma py_prints : prints_quantiles py_oracles.
Proof.
  intros q l q' I E. cbn [o_repr py_oracles].
  assert (F : forall x, Qeq_bool x q' = Qeq_bool x q).
  { intros x. apply Bool.eq_true_iff_eq. rewrite !Qeq_bool_iff, E. reflexivity. }
  replace (find (fun ql => Qeq_bool (fst ql) q') quantile_labels) with (find (fun ql => Qeq_bool (fst ql) q) quantile_labels)
    by (generalize quantile_labels; intros ls; induction ls as [|a ls IH]; cbn; [reflexivity|rewrite F, IH; reflexivity]).
  clear F E. cbn [In quantile_labels] in I. repeat (destruct I as [E|I]; [injection E as <- <-; reflexivity|]). destruct I.
Qed.

Definition raw_ex : pyval := match check_params py_oracles config_default (VDict []) with Ok st => fst st | Err _ => VNone end.
Definition tree_ex : ptree := match check_params py_oracles config_default (VDict []) with Ok st => snd st | Err _ => PNode [] end.
Definition params_ex : pyval := match parse_param_values raw_ex with Ok v => v | Err _ => VNone end.
Lemma accepted_ex : accepted py_oracles (VDict []) raw_ex params_ex tree_ex.
Proof.
  split; [cbn; split; [constructor|exact I]|]. split.
  - unfold raw_ex, tree_ex. assert (H : match check_params py_oracles config_default (VDict []) with Ok _ => true | Err _ => false end = true) by (vm_compute; reflexivity).
    destruct (check_params py_oracles config_default (VDict [])) as [[a b]|]; [reflexivity|discriminate].
  - unfold params_ex. assert (H : match parse_param_values raw_ex with Ok _ => true | Err _ => false end = true) by (vm_compute; reflexivity).
    destruct (parse_param_values raw_ex); [reflexivity|discriminate].
Qed.
Lemma quantities_ex : plain_quantities raw_ex.
Proof.
  intros p node v P T L. pose proof (param_at_leaves _ _ _ P []) as I. cbn [app] in I.
  assert (H : forallb (fun l => match entry (snd l) "type" with
    | Some (VStr t) => if String.eqb t "quantity" then match dict_get raw_ex (fst l) with Some (VStr s) => negb (has_brace s) | Some v => negb (is_dict v) | None => true end else true
    | _ => true end) (leaves schema_leaf [] config_default) = true) by (vm_compute; reflexivity).
  rewrite forallb_forall in H. specialize (H _ I). cbn [fst snd] in H. unfold has_type in T. rewrite T in H. change (String.eqb "quantity" "quantity") with true in H. cbv iota in H.
  rewrite <- lookup_dict_get, L in H. destruct v; try (split; [destruct (is_dict _); [discriminate|reflexivity]|intros ? E; discriminate E]).
  split; [reflexivity|]. intros s' E. injection E as <-. apply has_brace_false. destruct (has_brace s); [discriminate|reflexivity].
Qed.

Open Scope R_scope.
Fixpoint incb (l : list R) : bool :=
  match l with [] => true | x :: r => (forallb (fun y => if Rlt_dec x y then true else false) r && incb r)%bool end.
Lemma incb_spec l : incb l = true <-> TimeGridLemmas.increasing l.
Proof.
  induction l as [|x l IH]; [split; [intros _ i j H; cbn in H; lia|reflexivity]|]. cbn [incb]. rewrite Bool.andb_true_iff, IH, forallb_forall. split.
  - intros [H1 H2] i j Hij. destruct j as [|j]; [lia|]. cbn [List.length] in Hij. destruct i as [|i]; cbn [nth]; [|apply H2; lia].
    specialize (H1 (nth j l 0) ltac:(apply nth_In; lia)). destruct (Rlt_dec _ _); [assumption|discriminate].
  - intros H. split; [|intros i j Hij; apply (H (S i) (S j)); cbn; lia]. intros y Hy. apply (In_nth _ _ 0) in Hy as (n & N & <-).
    destruct (Rlt_dec _ _) as [?|X]; [reflexivity|]. exfalso. apply X. apply (H 0%nat (S n)). cbn. lia.
Qed.
Fixpoint at_node (x : R) (xs ys : list R) : R :=
  match xs, ys with a :: xs, b :: ys => if Req_EM_T a x then b else at_node x xs ys | _, _ => 0 end.
Definition curve (xs ys : list R) : result (R -> R) := if incb xs then Ok (fun x => at_node x xs ys) else Err ValueError.
Lemma curve_points : through_points curve.
Proof.
  intros xs ys f E L i I. unfold curve in E. destruct (incb xs) eqn:B; [|discriminate]. apply Ok_inj in E. subst f. apply incb_spec in B.
  revert ys i L I. induction xs as [|x xs IH]; intros [|y ys] i L I; try discriminate; [cbn in I; lia|]. cbn [at_node]. destruct i as [|i]; cbn [nth].
  - destruct (Req_EM_T x x); congruence.
  - cbn [List.length] in I. destruct (Req_EM_T x (nth i xs 0)) as [E|E].
    + exfalso. pose proof (B 0%nat (S i)) as X. cbn [nth List.length] in X. specialize (X ltac:(lia)). lra.
    + apply IH; [exact (increasing_tl _ _ B)|cbn in L; lia|lia].
Qed.
Lemma curve_defined : spline_defined curve.
Proof. intros xs ys I _ _. unfold curve. rewrite (proj2 (incb_spec xs) I). eauto. Qed.
Definition unit_one : string -> string -> result R := fun _ _ => Ok 1.

Definition regions_ex : list (key * pyval) := match lookup params_ex ["regions"] with Some (VDict d) => d | _ => [] end.
Example C57_ex : exists inst, construct py_oracles bundled (fun l => l) unit_one curve empty_caches (VDict []) = Ok inst /\ i_params inst = params_ex /\ i_tree inst = tree_ex.
Proof.
  apply (C57_bundled_constructs_pf py_oracles (fun l => l) unit_one curve [] (VDict []) raw_ex params_ex tree_ex regions_ex 2020%Q 2150%Q accepted_ex).
  - intros p H. cbn [In] in H. repeat (destruct H as [<-|H]; [reflexivity|]). destruct H.
  - exact quantities_ex.
  - vm_compute. reflexivity.
  - assert (H : forallb (fun kx => match fst kx with KStr r => existsb (String.eqb r) image_regions | _ => false end) regions_ex = true) by (vm_compute; reflexivity).
    intros k x I. rewrite forallb_forall in H. specialize (H _ I). cbn [fst] in H. destruct k as [r|z]; [|discriminate H]. apply existsb_exists in H as (r' & R1 & R2).
    apply String.eqb_eq in R2. subst r'. exists r. split; [reflexivity|exact R1].
  - eexists. split; vm_compute; reflexivity.
  - eexists. split; vm_compute; reflexivity.
  - discriminate.
  - discriminate.
  - vm_compute. discriminate.
  - exact py_prints.
  - intros l. apply Permutation_refl.
  - intros v to from _. exists 1. reflexivity.
  - exact curve_defined.
  - intros disk a [].
Qed.

(** The default horizon, 2020 to 2150 in steps of 5 years, has every second year at a decade. *)
Example C58_ex : exists inst, construct py_oracles bundled (fun l => l) unit_one curve (after unit_one curve [] empty_caches) (VDict []) = Ok inst /\
  distinct_keys (VDict []) /\ default_inputs (VDict []) /\ through_points curve /\ positive_units unit_one /\
  lookup (i_params inst) ["SSP"] = Some (VStr "SSP2") /\ a_start (i_args inst) <= a_end (i_args inst) /\
  (forall name, ~ customised (i_params inst) name) /\
  In 24%nat (model_steps (a_start (i_args inst)) (a_end (i_args inst)) (a_dt (i_args inst))) /\ In "BRA"%string (i_regions inst) /\
  year_at (a_start (i_args inst)) (a_dt (i_args inst)) 24 = IZR (decade 13).
Proof.
  destruct C57_ex as (inst & C & P & T). exists inst. split; [exact C|].
  destruct (construct_inv _ _ _ _ _ _ _ _ C) as (raw & rs & ch & decls & start & dt & H1 & H2 & H3 & (l & H4 & H4') & _ & _ & _ & H8 & _).
  rewrite P in *.
  assert (AE : i_args inst = {| a_start := Q2R 2020; a_end := Q2R 2150; a_dt := Q2R 5; a_regions := i_regions inst; a_variables := bundled_sources (scenario_of "SSP2") |}).
  { assert (F : store_args_of params_ex (i_regions inst) = Ok {| a_start := Q2R 2020; a_end := Q2R 2150; a_dt := Q2R 5; a_regions := i_regions inst; a_variables := bundled_sources (scenario_of "SSP2") |}).
    { apply bundled_args; [vm_compute; reflexivity|eexists; split; vm_compute; reflexivity..]. }
    rewrite H8 in F. apply Ok_inj in F. first [exact F|symmetry; exact F]. }
  assert (V : Q2R 2020 = 2020 /\ Q2R 2150 = 2150 /\ Q2R 5 = 5) by (unfold Q2R; cbn; lra). destruct V as (V1 & V2 & V3).
  rewrite AE. cbn [a_start a_end a_dt]. rewrite V1, V2, V3.
  split; [cbn; split; [constructor|exact I]|].
  split; [intros p H; cbn [In] in H; repeat (destruct H as [<-|H]; [reflexivity|]); destruct H|].
  split; [exact curve_points|]. split; [intros v to from k _ E; apply Ok_inj in E; subst; lra|].
  split; [vm_compute; reflexivity|]. split; [lra|]. split.
  { intros name (x & E). assert (D : lookup params_ex ["simulation"; "custom_mapping"] = Some (VDict [])) by (vm_compute; reflexivity).
    change ["simulation"; "custom_mapping"; name] with (["simulation"; "custom_mapping"] ++ [name])%list in E. rewrite lookup_app, D in E. discriminate E. }
  split.
  { destruct (C11_grid_covers_horizon_pf 2020 2150 5) as (tf & E & _ & _ & B & _); [lra|lra|]. rewrite E. apply in_seq. unfold year_at in B.
    assert (24 < INR tf + 1) by lra. assert ((24 < S tf)%nat) by (apply INR_lt; rewrite (S_INR tf); replace (INR 24) with 24 by (rewrite INR_IZR_INZ; reflexivity); lra). lia. }
  split.
  { rewrite H4'. assert (R : lookup params_ex ["regions"] = Some (VDict regions_ex)) by (vm_compute; reflexivity). rewrite R in H3. injection H3 as <-.
    assert (G : match items (VDict regions_ex) with Ok l => existsb (String.eqb "BRA") (map fst l) | Err _ => false end = true) by (vm_compute; reflexivity).
    rewrite H4 in G. apply existsb_exists in G as (x & G1 & G2). apply String.eqb_eq in G2. subst x. exact G1. }
  unfold year_at, decade. cbn. lra.
Qed.
