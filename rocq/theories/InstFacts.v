(** Facts about the final parameters and the instance data (used by InstantiateLemmas.v). *)
From Verif Require Import PyBase NestedDict NestedDictFacts Parsers Config ConfigDefault ConfigFacts ConfigFacts2 ConfigFacts3
  ConfigSpec ConfigBridge RefFacts ConfigLemmas DataStore DataStoreLemmas RegionalParams Instantiate.
From Coq Require Import Lia.
Import ListNotations.
Open Scope string_scope.
Open Scope list_scope.

(** *** Specification *)
(** [accepted o user raw params tree]: the user's dictionary passes the checks ([raw] are the checked values)
    and its references are replaced, giving [params]. *)
Definition accepted (o : oracles) (user raw params : pyval) (tree : ptree) : Prop :=
  distinct_keys user /\ check_params o config_default user = Ok (raw, tree) /\ parse_param_values raw = Ok params.

(** *** Facts *)
Lemma config_lookup params p v : config params p = Ok v <-> lookup params p = Some v.
Proof. unfold config. symmetry. apply lookup_get. Qed.

Definition template_node (p : list string) : option pyval :=
  match find (fun qn => match key_strings (fst qn) with Ok l => if list_eq_dec string_dec l p then true else false | Err _ => false end)
          (leaves schema_leaf [] config_default) with Some qn => Some (snd qn) | None => None end.
Lemma key_strings_keys_of q l : key_strings q = Ok l -> q = keys_of l.
Proof.
  revert l. induction q as [|k q IH]; intros l H; cbn in H; [injection H as <-; reflexivity|].
  destruct k; [|discriminate]. apply bind_ok in H as (l' & H1 & H2). injection H2 as <-. cbn. f_equal. apply IH, H1.
Qed.
Lemma template_node_ok p n : template_node p = Some n -> param_at config_default p n.
Proof.
  unfold template_node. destruct (find _ _) as [[q n']|] eqn:F; [|discriminate]. intros E. injection E as <-.
  apply find_some in F as [F1 F2]. cbn [fst snd] in *. destruct (key_strings q) as [l|] eqn:K; [|discriminate].
  destruct (list_eq_dec string_dec l p) as [->|]; [|discriminate]. apply key_strings_keys_of in K. subst q.
  destruct (leaves_param_at _ default_string _ _ _ F1) as (r & E & H). cbn [app] in E. apply keys_of_inj in E. subst r. exact H.
Qed.

Lemma accepted_distinct o user raw params tree : accepted o user raw params tree -> distinct_keys raw.
Proof.
  intros (D & C & _). apply distinct_wfb. apply check_params_parse in C.
  apply (parse_params_wf o config_default user (raw, tree)); [apply distinct_wfb, default_distinct|apply distinct_wfb, D| |exact C].
  intros q n H. destruct (leaves_param_at _ default_string _ _ _ H) as (r & -> & _). apply str_path_keys_of.
Qed.

(** the parser stored for a template parameter, and its checked value *)
Lemma accepted_param o user raw params tree p node : accepted o user raw params tree -> param_at config_default p node ->
  exists pr v, create_parser node = Ok pr /\ ptree_get tree (keys_of p) = Ok (PLeaf pr) /\ lookup raw p = Some v /\
    parse o pr (match lookup user p with Some x => x | None => default_of node end) = Ok v.
Proof.
  intros (D & C & _) P. destruct (param_stored o config_default user raw tree p node default_distinct C P) as (pr & v & H1 & H2 & H3).
  exists pr, v. split; [exact H1|]. split; [|auto]. apply check_params_parse in C.
  destruct (parse_params_inv o config_default user (raw, tree) (proj1 (distinct_wfb _) default_distinct) C) as [I _].
  apply param_at_leaves with (pre := []) in P. destruct (I _ _ P) as (pr' & v' & K1 & _ & _ & K2). cbn [app snd] in K2. congruence.
Qed.

Lemma param_path_nonempty t p node : param_at t p node -> p <> [].
Proof. intros H. destruct H; discriminate. Qed.

Lemma resolve_keeps s keys node l s' : get_nested s keys = Ok (VStr node) -> fold_result (resolve_match keys node) l s = Ok s' ->
  exists x, get_nested s' keys = Ok (VStr x).
Proof.
  intros G H.
  assert (K : forall l s, (exists x, get_nested s keys = Ok (VStr x)) -> forall s', fold_result (resolve_match keys node) l s = Ok s' ->
     exists x, get_nested s' keys = Ok (VStr x)).
  { clear. induction l as [|m l IH]; intros s G s' H; cbn in H; [injection H as <-; exact G|].
    apply bind_ok in H as (s1 & H1 & H2). eapply IH; [|exact H2]. unfold resolve_match in H1.
    destruct (get_nested s (map KStr (str_split m " - "))) as [v|e]; [|destruct e; try discriminate; injection H1 as <-; exact G].
    destruct v; try discriminate. destruct (set_nested s keys _) as [s2|e] eqn:E; [|destruct e; try discriminate; injection H1 as <-; exact G].
    injection H1 as <-. eexists. eapply get_set_same, E. }
  eauto.
Qed.

Lemma final_value o user raw params tree p node v : accepted o user raw params tree -> param_at config_default p node ->
  lookup raw p = Some v -> is_dict v = false ->
  exists w, lookup params p = Some w /\ is_dict w = false /\ ((forall s, v <> VStr s) -> w = v) /\ ((forall s, v = VStr s -> no_brace s) -> w = v).
Proof.
  intros A P L N. pose proof (accepted_distinct _ _ _ _ _ A) as D. destruct A as (_ & _ & R).
  pose proof (param_path_nonempty _ _ _ P) as NE.
  assert (K : (forall s, v = VStr s -> no_brace s) -> lookup params p = Some v) by (intros H; eapply C07_no_reference_unchanged_pf; eauto).
  destruct v as [| | | |s| |]; try (eexists; split; [apply K; intros s H; discriminate H|]; split; [exact N|]; split; auto).
  assert (IN : In (keys_of p, VStr s) (leaves value_leaf [] raw)) by (apply leaf_in; auto).
  destruct (resolve_at_leaf raw params (keys_of p) (VStr s) (proj1 (distinct_wfb _) D) R IN) as (s1 & s2 & L1 & L2 & _ & _ & H1 & H2 & H3 & _).
  unfold resolve_leaf in H1. cbn [fst snd] in H1. destruct (resolve_keeps _ _ _ _ _ H2 H1) as [x X]. rewrite X in H3. apply lookup_get in H3.
  exists (VStr x). split; [exact H3|]. split; [reflexivity|]. split; [intros H; destruct (H s eq_refl)|].
  intros H. specialize (K H). congruence.
Qed.

(** *** Typed parameters *)
Definition has_brace (s : string) : bool := existsb (Ascii.eqb "{") (list_ascii_of_string s).
Lemma has_brace_false s : has_brace s = false -> no_brace s.
Proof.
  unfold has_brace, no_brace. induction s as [|c s IH]; cbn; [auto|]. intros H. apply Bool.orb_false_iff in H as [H1 H2]. split; [|apply IH, H2].
  intros ->. discriminate H1.
Qed.
Definition plain_option (w : pyval) : bool :=
  match w with VStr s => negb (has_brace s) | VBool _ | VInt _ | VFloat _ => true | _ => false end.
Definition scalar_node (node : pyval) : bool :=
  match entry node "type" with
  | Some (VStr t) =>
      if String.eqb t "enum" then match entry node "values" with Some (VList l) => forallb plain_option l | _ => false end
      else existsb (String.eqb t) ["float"; "int"; "bool"; "quantity"]
  | _ => false
  end.
Definition quantity_node (node : pyval) : bool :=
  match entry node "type" with Some (VStr t) => String.eqb t "quantity" | _ => false end.

Lemma py_eqb_option v w : plain_option w = true -> py_eqb v w = true ->
  is_dict v = false /\ (forall s, v = VStr s -> no_brace s).
Proof.
  intros P E. destruct w; try discriminate P; destruct v; try discriminate E; split; try reflexivity; try (intros s' H; discriminate H).
  intros s' H. injection H as <-. cbn in E. apply String.eqb_eq in E. subst. apply has_brace_false. cbn in P. destruct (has_brace s); [discriminate P|reflexivity].
Qed.

Lemma scalar_parse o node pr x v : create_parser node = Ok pr -> scalar_node node = true -> quantity_node node = false ->
  parse o pr x = Ok v -> p_type pr <> TQuantity /\ is_dict v = false /\ (forall s, v = VStr s -> no_brace s).
Proof.
  intros C S Q H. destruct (create_parser_type _ _ C) as (d & tn & -> & Hd & Hl).
  unfold scalar_node, quantity_node, entry in *. rewrite Hd in *.
  destruct (create_parser_fields _ _ C) as (_ & _ & _ & Fe).
  destruct (String.eqb tn "enum") eqn:E1.
  { apply String.eqb_eq in E1. subst tn. cbn in Hl. injection Hl as Hl. symmetry in Hl. unfold entry in Fe. rewrite (Fe Hl) in S.
    split; [congruence|]. destruct (parse_enum _ _ _ _ Hl H) as [[-> _]|[H1 H2]]; [split; [reflexivity|intros s K; discriminate K]|].
    assert (K : py_in v (p_allowed pr) = true) by (try (subst; exact H2); first [exact H1|exact H2]).
    unfold py_in in K. apply existsb_exists in K as (w & K1 & K2). rewrite forallb_forall in S. eapply py_eqb_option; eauto. }
  cbn [existsb] in S. destruct (String.eqb tn "float") eqn:E2; [|destruct (String.eqb tn "int") eqn:E3; [|destruct (String.eqb tn "bool") eqn:E4; [|rewrite Q in S; discriminate S]]].
  - apply String.eqb_eq in E2. subst tn. cbn in Hl. injection Hl as Hl. symmetry in Hl. split; [congruence|].
    destruct (parse_num _ _ _ _ (or_introl Hl) H) as [[-> _]|(_ & _ & F & _)]; [split; [reflexivity|intros s K; discriminate K]|].
    destruct (F Hl) as [f ->]. split; [reflexivity|intros s K; discriminate K].
  - apply String.eqb_eq in E3. subst tn. cbn in Hl. injection Hl as Hl. symmetry in Hl. split; [congruence|].
    destruct (parse_num _ _ _ _ (or_intror Hl) H) as [[-> _]|(_ & _ & _ & F)]; [split; [reflexivity|intros s K; discriminate K]|].
    destruct (F Hl) as [f ->]. split; [reflexivity|intros s K; discriminate K].
  - apply String.eqb_eq in E4. subst tn. cbn in Hl. injection Hl as Hl. symmetry in Hl. split; [congruence|].
    destruct pr as [ty dd c mn mx al u vp kp]. cbn [p_type] in Hl. subst ty. cbn [parse] in H.
    destruct (c && is_falsy x); [injection H as <-; split; [reflexivity|intros s K; discriminate K]|].
    destruct (is_truthy x); [injection H as <-; split; [reflexivity|intros s K; discriminate K]|].
    destruct (is_falsy x); [injection H as <-; split; [reflexivity|intros s K; discriminate K]|discriminate].
Qed.

Lemma quantity_parser node pr : create_parser node = Ok pr -> quantity_node node = true ->
  p_type pr = TQuantity /\ entry node "unit" = Some (p_unit pr).
Proof.
  intros C Q. destruct (create_parser_type _ _ C) as (d & tn & -> & Hd & Hl). unfold quantity_node, entry in *. rewrite Hd in Q.
  apply String.eqb_eq in Q. subst tn. cbn in Hl. injection Hl as Hl. split; [congruence|].
  cbn [create_parser] in C. rewrite Hd in C. cbn in C. destruct (dget d (KStr "unit")) as [u|]; [|discriminate]. injection C as <-. reflexivity.
Qed.
Lemma quantity_parse o node pr x v : create_parser node = Ok pr -> quantity_node node = true -> parse o pr x = Ok v ->
  v = VBool false \/ exists u q, entry node "unit" = Some (VStr u) /\
    o_pint o (custom_replace (py_str (o_repr o) v)) (parse_default_units (custom_replace u)) = Ok q.
Proof.
  intros C Q H. destruct (quantity_parser _ _ C Q) as [T U]. rewrite U. clear C Q U.
  destruct pr as [ty dd c mn mx al u vp kp]. cbn [p_type p_unit] in *. subst ty. cbn [parse] in H.
  destruct (c && is_falsy x); [injection H as <-; left; reflexivity|]. right.
  unfold quant in H. cbn [andb] in H. destruct u; try discriminate. exists s.
  destruct (o_pint o _ _) as [q|e] eqn:E; cbn [bind] in H; [|destruct e; discriminate H]. injection H as <-. exists q. split; [reflexivity|exact E].
Qed.

(** the value handed to pyomo for a ["::path"] parameter *)
Lemma scalar_value_spec o user raw params tree p node : accepted o user raw params tree -> param_at config_default p node ->
  scalar_node node = true ->
  (quantity_node node = true -> forall v, lookup raw p = Some v -> is_dict v = false /\ forall s, v = VStr s -> no_brace s) ->
  exists v, lookup raw p = Some v /\ lookup params p = Some v /\
    (quantity_node node = false -> scalar_value o tree params p = Ok v) /\
    (quantity_node node = true -> v = VBool false -> scalar_value o tree params p = Ok (VBool false)) /\
    (quantity_node node = true -> v <> VBool false -> exists u q, entry node "unit" = Some (VStr u) /\
       o_pint o (custom_replace (py_str (o_repr o) v)) (parse_default_units (custom_replace u)) = Ok q /\
       scalar_value o tree params p = Ok (VFloat (FFin q))).
Proof.
  intros A P S N. destruct (accepted_param _ _ _ _ _ _ _ A P) as (pr & v & C & T & L & H). exists v. split; [exact L|].
  assert (B : is_dict v = false /\ forall s, v = VStr s -> no_brace s).
  { destruct (quantity_node node) eqn:Q; [apply N; auto|]. eapply scalar_parse; eauto. }
  destruct B as [B1 B2]. destruct (final_value _ _ _ _ _ _ _ _ A P L B1) as (w & W & _ & _ & W2). specialize (W2 B2). subst w. split; [exact W|].
  unfold scalar_value. unfold config. apply lookup_get in W. change (map KStr p) with (keys_of p). rewrite W, T. cbn [bind].
  split; [|split].
  - intros Q. destruct (scalar_parse _ _ _ _ _ C S Q H) as [X _]. destruct (p_type pr); congruence.
  - intros Q ->. destruct (quantity_parser _ _ C Q) as [-> _]. reflexivity.
  - intros Q NF. destruct (quantity_parser _ _ C Q) as [-> U]. destruct (quantity_parse _ _ _ _ _ C Q H) as [E|(u & q & E1 & E2)]; [contradiction|].
    exists u, q. split; [exact E1|]. split; [exact E2|]. rewrite E1 in U. injection U as <-. unfold quant.
    assert (F : match v with VBool false => true | _ => false end = false) by (destruct v as [|[]| | | | |]; congruence). rewrite F. cbn [andb]. rewrite E2. reflexivity.
Qed.

(** *** Resolving references keeps the dictionaries and their keys *)
Fixpoint shape (v : pyval) : pyval :=
  match v with
  | VDict d => VDict ((fix go (l : pydict) : pydict := match l with [] => [] | (k, x) :: r => (k, shape x) :: go r end) d)
  | _ => VNone
  end.
Definition shapes (d : pydict) : pydict := map (fun kx => (fst kx, shape (snd kx))) d.
Lemma shape_dict d : shape (VDict d) = VDict (shapes d).
Proof. cbn [shape]. f_equal. unfold shapes. induction d as [|[k x] d IH]; [reflexivity|]. cbn [map fst snd]. rewrite <- IH. reflexivity. Qed.
Fixpoint dict_get (v : pyval) (ks : list key) : option pyval :=
  match ks with
  | [] => Some v
  | k :: r => match v with VDict d => match dget d k with Some x => dict_get x r | None => None end | _ => None end
  end.
Lemma dget_shapes d k : dget (shapes d) k = option_map shape (dget d k).
Proof. induction d as [|[k' x] d IH]; [reflexivity|]. cbn. destruct (key_eqb k' k); [reflexivity|exact IH]. Qed.
Lemma dict_get_shape v ks : dict_get (shape v) ks = option_map shape (dict_get v ks).
Proof.
  revert v. induction ks as [|k ks IH]; intros v; [reflexivity|]. destruct v as [| | | | | |d]; try reflexivity.
  rewrite shape_dict. cbn [dict_get]. rewrite dget_shapes. destruct (dget d k); [apply IH|reflexivity].
Qed.
Lemma shape_leaf v : is_dict v = false <-> shape v = VNone.
Proof. destruct v as [| | | | | |d]; cbn [is_dict]; try tauto. rewrite shape_dict. split; discriminate. Qed.
Lemma shapes_dset d k x y : dget d k = Some x -> shape x = shape y -> shapes (dset d k y) = shapes d.
Proof.
  intros H E. induction d as [|[k' z] d IH]; [discriminate|]. cbn in H |- *. destruct (key_eqb k' k) eqn:K.
  - injection H as ->. cbn. rewrite E. try (assert (k' = k) by (destruct k', k; cbn in K; try discriminate K; [apply String.eqb_eq in K|apply Z.eqb_eq in K]; congruence); subst). reflexivity.
  - cbn. f_equal. apply IH, H.
Qed.
Lemma shape_set ks : forall v x y v', dict_get v ks = Some y -> is_dict y = false -> is_dict x = false ->
  set_nested v ks x = Ok v' -> shape v' = shape v.
Proof.
  induction ks as [|k ks IH]; intros v x y v' G Y X S; [discriminate S|]. destruct v as [| | | | | |d]; try discriminate.
  cbn [dict_get] in G. destruct (dget d k) as [z|] eqn:D; [|discriminate]. cbn [set_nested] in S. destruct ks as [|k2 ks].
  - injection S as <-. cbn in G. injection G as ->. rewrite !shape_dict. f_equal. eapply shapes_dset; [exact D|]. apply shape_leaf in Y, X. congruence.
  - rewrite D in S. apply bind_ok in S as (sub & S1 & S2). injection S2 as <-. rewrite !shape_dict. f_equal. eapply shapes_dset; [exact D|].
    symmetry. eapply IH; eauto.
Qed.
Lemma leaves_dict_get crit v : wfb v = true -> forall pre r n, In (pre ++ r, n) (leaves crit pre v) -> dict_get v r = Some n.
Proof.
  induction v using pyval_ind'; intros Hwf pre r n Hin; try (simpl in Hin; tauto).
  rewrite leaves_dict in Hin. apply in_flat_map in Hin. destruct Hin as [[k x] [Hd Hin]].
  simpl in Hin. rewrite Forall_forall in H. specialize (H _ Hd). simpl in H.
  apply wfb_dict in Hwf. destruct Hwf as [Hnd Hwf].
  destruct (crit x) eqn:E.
  - destruct Hin as [Hin|[]]. inversion Hin as [[H1 H2]]. apply app_inv_head in H1. subst.
    simpl. rewrite (In_dget _ _ _ Hnd Hd). reflexivity.
  - destruct (leaves_prefix _ _ _ _ _ Hin) as [k' [r' Hr]]. rewrite <- app_assoc in Hr.
    apply app_inv_head in Hr. subst r. change (dict_get (VDict d) (k :: k' :: r') = Some n).
    change (match dget d k with Some y => dict_get y (k' :: r') | None => None end = Some n). rewrite (In_dget _ _ _ Hnd Hd).
    apply (H (Hwf _ _ Hd) (pre ++ [k])). rewrite <- app_assoc. exact Hin.
Qed.
Lemma resolve_fold_shape L : forall s params, (forall q n, In (q, n) L -> exists y, dict_get s q = Some y /\ is_dict y = false) ->
  fold_result resolve_leaf L s = Ok params -> shape params = shape s.
Proof.
  assert (M : forall keys node l s s', (exists y, dict_get s keys = Some y /\ is_dict y = false) ->
      fold_result (resolve_match keys node) l s = Ok s' -> shape s' = shape s).
    { clear. intros keys node l. induction l as [|m l IH]; intros s s' Y H; cbn in H; [injection H as <-; reflexivity|].
      apply bind_ok in H as (s1 & H1 & H2).
      assert (E : shape s1 = shape s).
      { unfold resolve_match in H1. destruct (get_nested s _) as [v|e]; [|destruct e; try discriminate; injection H1 as <-; reflexivity].
        destruct v; try discriminate. destruct (set_nested s keys _) as [s2|e] eqn:E; [|destruct e; try discriminate; injection H1 as <-; reflexivity].
        injection H1 as <-. destruct Y as (y & Y1 & Y2). eapply (shape_set keys s _ y s2); [exact Y1|exact Y2| |exact E]. reflexivity. }
      rewrite <- E. apply IH; [|exact H2]. destruct Y as (y & Y1 & Y2). pose proof (dict_get_shape s1 keys) as K. rewrite E, dict_get_shape, Y1 in K.
      cbn in K. destruct (dict_get s1 keys) as [z|]; [|discriminate]. exists z. split; [reflexivity|]. apply shape_leaf. injection K as K.
      apply shape_leaf in Y2. congruence. }
    induction L as [|[q n] L IH]; intros s params Y H; cbn in H; [injection H as <-; reflexivity|].
    apply bind_ok in H as (s1 & H1 & H2).
    assert (E : shape s1 = shape s).
    { unfold resolve_leaf in H1. cbn [fst snd] in H1. destruct n; try (injection H1 as <-; reflexivity). eapply M; [|exact H1]. eapply Y. left. reflexivity. }
    rewrite <- E. apply IH; [|exact H2]. intros q' n' I. destruct (Y q' n' (or_intror I)) as (y & Y1 & Y2).
    pose proof (dict_get_shape s1 q') as K. rewrite E, dict_get_shape, Y1 in K.
    cbn in K. destruct (dict_get s1 q') as [z|]; [|discriminate]. exists z. split; [reflexivity|]. apply shape_leaf. injection K as K.
    apply shape_leaf in Y2. congruence.
Qed.
Lemma resolve_shape raw params : wfb raw = true -> parse_param_values raw = Ok params -> shape params = shape raw.
Proof.
  intros W H. unfold parse_param_values in H. destruct raw as [| | | | | |d]; try discriminate.
  set (raw := VDict d) in *.
  eapply resolve_fold_shape; [|exact H]. intros q n I. exists n. split.
  - apply (leaves_dict_get value_leaf raw W [] q n I).
  - pose proof (leaves_crit _ _ _ _ _ I) as C. apply value_leaf_true, C.
Qed.
Lemma lookup_dict_get v p : lookup v p = dict_get v (keys_of p).
Proof. revert v. induction p as [|k p IH]; intros v; [reflexivity|]. cbn. destruct v as [| | | | | |d]; try reflexivity. destruct (dget d (KStr k)); [apply IH|reflexivity]. Qed.
Lemma final_shape o user raw params tree p v : accepted o user raw params tree -> lookup raw p = Some v ->
  exists w, lookup params p = Some w /\ shape w = shape v.
Proof.
  intros A L. pose proof (accepted_distinct _ _ _ _ _ A) as D. destruct A as (_ & _ & R).
  pose proof (resolve_shape _ _ (proj1 (distinct_wfb _) D) R) as S. rewrite lookup_dict_get in *.
  pose proof (dict_get_shape params (keys_of p)) as K. rewrite S, dict_get_shape, L in K. cbn in K.
  destruct (dict_get params (keys_of p)) as [w|]; [|discriminate]. exists w. injection K as K. auto.
Qed.
Lemma final_dict o user raw params tree p d : accepted o user raw params tree -> lookup raw p = Some (VDict d) ->
  exists d', lookup params p = Some (VDict d') /\ map fst d' = map fst d.
Proof.
  intros A L. destruct (final_shape _ _ _ _ _ _ _ A L) as (w & W & S). rewrite shape_dict in S.
  destruct w as [| | | | | |d']; try discriminate S. rewrite shape_dict in S. injection S as S. exists d'. split; [exact W|].
  assert (F : forall d, map fst (shapes d) = map fst d) by (intros; unfold shapes; rewrite map_map; reflexivity).
  rewrite <- F, S, F. reflexivity.
Qed.
