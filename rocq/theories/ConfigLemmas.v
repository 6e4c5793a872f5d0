(** Proofs of the configuration properties in the vocabulary of ConfigSpec.v. *)
From Coq Require Import Lia.
From Verif Require Import PyBase NestedDict NestedDictFacts Parsers Config ConfigDefault ConfigFacts ConfigFacts2
  ConfigFacts3 UnitsFacts ConfigSpec ConfigBridge RefFacts.

Lemma check_params_parse o template user st : check_params o template user = Ok st ->
  parse_params o template user = Ok st.
Proof.
  unfold check_params. destruct (parse_params o template user) as [st0|]; cbn [bind]; [|congruence].
  destruct (check_obsolete_params user (fst st0) (snd st0)); cbn [bind]; congruence.
Qed.

Lemma param_stored o template user out tree p node :
  distinct_keys template -> check_params o template user = Ok (out, tree) -> param_at template p node ->
  exists pr v, create_parser node = Ok pr /\ lookup out p = Some v /\
    parse o pr (match lookup user p with Some raw => raw | None => default_of node end) = Ok v.
Proof.
  intros Hd Hc Hp. apply check_params_parse in Hc. apply distinct_wfb in Hd.
  destruct (parse_params_inv _ _ _ _ Hd Hc) as [I1 _].
  apply param_at_leaves with (pre := []) in Hp. destruct (I1 _ _ Hp) as [pr [v [H1 [H2 [H3 _]]]]].
  cbn [fst app] in H3. exists pr, v. split; [assumption|]. split; [apply lookup_get; assumption|].
  unfold parser_get in H2. cbn [app] in H2. destruct (get_nested user (keys_of p)) as [raw|e] eqn:E.
  - apply lookup_get in E. rewrite E. exact H2.
  - destruct (lookup user p) as [raw|] eqn:El; [apply lookup_get in El; congruence|].
    destruct e; try congruence. destruct (create_parser_fields _ _ H1) as [<- _]. exact H2.
Qed.

Lemma in_out_param o template user out tree p v :
  distinct_keys template -> all_keys string_key template ->
  check_params o template user = Ok (out, tree) -> p <> [] -> lookup out p = Some v ->
  exists q node, param_at template q node /\ (prefix_of p q \/ prefix_of q p).
Proof.
  intros Hd Hk Hc Hp Hl. apply check_params_parse in Hc. apply distinct_wfb in Hd.
  destruct (parse_params_inv _ _ _ _ Hd Hc) as [_ [I2 _]].
  assert (Hdec : (exists q n, In (q, n) (leaves schema_leaf [] template) /\ (is_prefix (keys_of p) q \/ is_prefix q (keys_of p)))
     \/ forall q n, In (q, n) (leaves schema_leaf [] template) -> incomparable (keys_of p) q).
  { clear. induction (leaves schema_leaf [] template) as [|[q n] L IH]; [right; intros ? ? []|].
    destruct IH as [[q' [n' [H1 H2]]]|IH]; [left; exists q', n'; split; [right|]; assumption|].
    destruct (is_prefix_dec (keys_of p) q) as [E|E]; [left; exists q, n; split; [left; reflexivity|auto]|].
    destruct (is_prefix_dec q (keys_of p)) as [E'|E']; [left; exists q, n; split; [left; reflexivity|auto]|].
    right. intros q' n' [H|H]; [inversion H; subst; split; assumption|eauto]. }
  destruct Hdec as [[q [n [H1 H2]]]|Hinc].
  - destruct (leaves_param_at _ Hk _ _ _ H1) as [r [-> Hr]]. exists r, n. split; [assumption|].
    cbn [app] in H2. rewrite !prefix_of_iff. exact H2.
  - exfalso. destruct (I2 (keys_of p)) as [H _]; [destruct p; [congruence|discriminate]|assumption|].
    apply lookup_get in Hl. cbn [fst] in H. congruence.
Qed.

Lemma C01_params_exact_pf : forall o template user out tree,
  distinct_keys template -> all_keys string_key template ->
  check_params o template user = Ok (out, tree) ->
  (forall p node, param_at template p node ->
     exists pr v, create_parser node = Ok pr /\ lookup out p = Some v /\
       parse o pr (match lookup user p with Some raw => raw | None => default_of node end) = Ok v) /\
  (forall p v, p <> [] -> lookup out p = Some v ->
     exists q node, param_at template q node /\ (prefix_of p q \/ prefix_of q p)).
Proof.
  intros o template user out tree Hd Hk Hc. split.
  - intros p node. eapply param_stored; eauto.
  - intros p v. eapply in_out_param; eauto.
Qed.

Lemma C02_unknown_key_rejected_pf : forall o template user p v,
  distinct_keys template -> distinct_keys user -> all_keys plain_key template ->
  Forall plain p -> lookup user p = Some v -> is_dict v = false ->
  (forall q node, param_at template q node ->
     p <> q /\ ~ (prefix_of q p /\ (has_type node "dict" \/ has_type node "datasource"))) ->
  forall st, check_params o template user <> Ok st.
Proof.
  intros o template user p v Hdt Hdu Hkt Hp Hl Hv Hno st Hc.
  apply distinct_wfb in Hdt, Hdu. apply lookup_get in Hl.
  assert (Hfree : forall q n, In (q, n) (leaves schema_leaf [] template) -> Forall free q).
  { intros q n Hin. destruct (leaves_param_at _ (all_keys_plain_string _ Hkt) _ _ _ Hin) as [r [-> Hr]].
    cbn [app]. apply plain_free. eapply param_at_plain; eauto. }
  destruct (known_keys _ _ _ _ _ _ Hdt Hdu Hfree Hc Hl Hv (plain_free _ Hp)) as [q [n [Hin Hq]]].
  destruct (leaves_param_at _ (all_keys_plain_string _ Hkt) _ _ _ Hin) as [r [-> Hr]]. cbn [app] in *.
  destruct (Hno _ _ Hr) as [N1 N2]. destruct Hq as [Hq|[Hq Hd]].
  - apply keys_of_inj in Hq. congruence.
  - apply N2. split; [apply prefix_of_iff; assumption|]. destruct Hd as [d [-> Hd]]. exact Hd.
Qed.

(** ** Bounds *)
Lemma numeric_num_of v x : numeric v x -> num_of v = Some x.
Proof. intros [[z [-> ->]]| ->]; reflexivity. Qed.

Lemma fltb_num_le a b : a <> FNaN -> b <> FNaN -> fltb b a = false -> num_le a b.
Proof.
  destruct a, b; simpl; try congruence; auto. intros _ _ H.
  destruct (Qlt_le_dec q0 q) as [L|L]; [|assumption].
  unfold Qltb in H. apply Qle_bool_iff. destruct (Qle_bool q q0) eqn:E; [reflexivity|discriminate].
Qed.
Lemma C03_bounds_pf : forall o template user out tree p node lo hi,
  distinct_keys template -> check_params o template user = Ok (out, tree) ->
  param_at template p node -> has_type node "float" \/ has_type node "int" ->
  lower_bound node lo -> upper_bound node hi ->
  exists v, lookup out p = Some v /\
    ((v = VBool false /\ may_be_false node) \/
     v = VFloat FNaN \/
     exists x, numeric v x /\ num_le lo x /\ num_le x hi).
Proof.
  intros o template user out tree p node lo hi Hd Hc Hp Hty Hlo Hhi.
  destruct (param_stored _ _ _ _ _ _ _ Hd Hc Hp) as [pr [v [H1 [H2 H3]]]]. exists v. split; [assumption|].
  destruct (create_parser_fields _ _ H1) as [_ [Fc [Fb _]]].
  assert (Ht : p_type pr = TFloat \/ p_type pr = TInt).
  { destruct Hty as [T|T]; apply (has_type_lookup _ _ _ H1) in T; cbn in T; inversion T; auto. }
  destruct (Fb Ht) as [Fmin Fmax].
  destruct (parse_num _ _ _ _ Ht H3) as [[-> [Hcb _]]|[Hl [Hu [Hf Hi]]]]; [left; split; [reflexivity|apply Fc, Hcb]|].
  right.
  assert (Hlo' : num_of (p_min pr) = Some lo /\ lo <> FNaN).
  { rewrite Fmin. unfold lower_bound in Hlo. destruct (entry node "min").
    - destruct Hlo as [N1 N2]. split; [apply numeric_num_of; assumption|assumption].
    - subst. split; [reflexivity|congruence]. }
  assert (Hhi' : num_of (p_max pr) = Some hi /\ hi <> FNaN).
  { rewrite Fmax. unfold upper_bound in Hhi. destruct (entry node "max").
    - destruct Hhi as [N1 N2]. split; [apply numeric_num_of; assumption|assumption].
    - subst. split; [reflexivity|congruence]. }
  destruct Hlo' as [El Nl], Hhi' as [Eh Nh]. unfold le_num in Hl, Hu. rewrite El in Hl. rewrite Eh in Hu.
  destruct Ht as [Ht|Ht].
  - destruct (Hf Ht) as [f ->]. cbn [num_of] in *. destruct (match f with FNaN => true | _ => false end) eqn:En.
    + destruct f; try discriminate. left; reflexivity.
    + right. exists f. assert (f <> FNaN) by (intros ->; discriminate).
      split; [right; reflexivity|]. split; apply fltb_num_le; assumption.
  - destruct (Hi Ht) as [z ->]. cbn [num_of] in *. right. exists (FFin (inject_Z z)).
    split; [left; eauto|]. split; apply fltb_num_le; try assumption; congruence.
Qed.

Lemma C04_enum_listed_pf : forall o template user out tree p node l,
  distinct_keys template -> check_params o template user = Ok (out, tree) ->
  param_at template p node -> has_type node "enum" -> entry node "values" = Some (VList l) ->
  exists v, lookup out p = Some v /\
    ((v = VBool false /\ may_be_false node) \/
     exists w, In w l /\ py_eqb v w = true /\ (forall s, w = VStr s -> v = w)).
Proof.
  intros o template user out tree p node l Hd Hc Hp Hty Hl.
  destruct (param_stored _ _ _ _ _ _ _ Hd Hc Hp) as [pr [v [H1 [H2 H3]]]]. exists v. split; [assumption|].
  destruct (create_parser_fields _ _ H1) as [_ [Fc [_ Fe]]].
  assert (Ht : p_type pr = TEnum).
  { apply (has_type_lookup _ _ _ H1) in Hty; cbn in Hty; inversion Hty; auto. }
  destruct (parse_enum _ _ _ _ Ht H3) as [[-> [Hcb _]]|[E Hin]]; [left; split; [reflexivity|apply Fc, Hcb]|].
  right. rewrite (Fe Ht) in Hl. injection Hl as <-. unfold py_in in Hin. apply existsb_exists in Hin.
  destruct Hin as [w [Hw He]]. exists w. split; [assumption|]. split; [assumption|].
  intros s ->. clear -He. destruct v as [|[]|z|f|t|l|d]; simpl in He; try discriminate. apply String.eqb_eq in He. congruence.
Qed.

(** ** False *)
Lemma falsy_iff v : falsy_value v <-> is_falsy v = true.
Proof. unfold falsy_value. symmetry. apply is_falsy_spec. Qed.

Lemma parse_false_inv o p v : parse o p v = Ok (VBool false) ->
  (p_cbf p = true /\ is_falsy v = true) \/ p_type p = TBool \/ p_type p = TEnum \/ p_type p = TQuantity.
Proof.
  destruct p as [ty d c mn mx al u vp kp]. cbn [p_cbf p_type]. cbn [parse].
  destruct (c && is_falsy v) eqn:E; [apply andb_true_iff in E; auto|]. intros H.
  destruct ty; auto; exfalso.
  - destruct (py_float v); cbn [bind] in H; [|congruence]. apply check_bounds_id in H. congruence.
  - destruct (py_int v); cbn [bind] in H; [|congruence]. apply check_bounds_id in H. congruence.
  - congruence.
  - destruct v; try congruence. destruct (map_result _ l); cbn [bind] in H; congruence.
  - destruct v; try congruence. match type of H with bind ?m _ = _ => destruct m; cbn [bind] in H; congruence end.
  - destruct v; try congruence.
    match type of H with bind ?m _ = _ => destruct m; cbn [bind] in H; [|congruence] end.
    match type of H with (if ?b then _ else _) = _ => destruct b; congruence end.
  - congruence.
  - destruct v; congruence.
Qed.
Lemma parse_id_enum_quant o p v w : p_type p = TEnum \/ p_type p = TQuantity -> parse o p v = Ok w ->
  w = VBool false -> is_falsy v = true.
Proof.
  intros Ht H ->. destruct p as [ty d c mn mx al u vp kp]. cbn [p_type] in Ht. cbn [parse] in H.
  destruct (c && is_falsy v) eqn:E; [apply andb_true_iff in E; tauto|].
  destruct Ht as [->| ->].
  - destruct (py_in v al); inversion H; reflexivity.
  - destruct (quant o v u false) as [|[]]; inversion H; reflexivity.
Qed.

Lemma C05_false_normalised_pf : forall o template user out tree p node,
  distinct_keys template -> check_params o template user = Ok (out, tree) ->
  param_at template p node ->
  let raw := match lookup user p with Some r => r | None => default_of node end in
  (* a falsy value of a can_be_false parameter is stored as False *)
  (may_be_false node -> falsy_value raw -> lookup out p = Some (VBool false)) /\
  (* anything stored as False was given as a falsy value *)
  (lookup out p = Some (VBool false) -> falsy_value raw) /\
  (* numbers, strings, lists and dictionaries that are not can_be_false are never False *)
  (~ may_be_false node ->
   ~ (has_type node "bool" \/ has_type node "enum" \/ has_type node "quantity") ->
   lookup out p <> Some (VBool false)).
Proof.
  intros o template user out tree p node Hd Hc Hp raw.
  destruct (param_stored _ _ _ _ _ _ _ Hd Hc Hp) as [pr [v [H1 [H2 H3]]]]. fold raw in H3.
  destruct (create_parser_fields _ _ H1) as [_ [Fc _]].
  destruct (create_parser_type _ _ H1) as [d [tn [-> [Hd' Hl]]]].
  split; [|split].
  - intros Hm Hf. rewrite H2. apply Fc in Hm. apply falsy_iff in Hf. rewrite (parse_false _ _ _ Hm Hf) in H3. congruence.
  - rewrite H2. intros E. inversion E; subst v. apply falsy_iff.
    destruct (parse_false_inv _ _ _ H3) as [[_ H]|[H|H]]; [assumption| |eapply parse_id_enum_quant; eauto].
    destruct pr as [ty dd c mn mx al u vp kp]. cbn [p_type] in H. subst ty. cbn [parse] in H3.
    destruct (c && is_falsy raw) eqn:Ec; [apply andb_true_iff in Ec; tauto|].
    destruct (is_truthy raw); [congruence|]. destruct (is_falsy raw); [reflexivity|congruence].
  - rewrite H2. intros Hm Hty E. inversion E; subst v.
    destruct (parse_false_inv _ _ _ H3) as [[H _]|H]; [apply Hm, Fc, H|].
    apply Hty. unfold has_type, entry. rewrite Hd'.
    assert (G : forall t, type_lookup parser_types tn = Some t -> t = TBool \/ t = TEnum \/ t = TQuantity ->
              tn = "bool" \/ tn = "enum" \/ tn = "quantity").
    { clear. intros t. unfold parser_types. cbn [type_lookup].
      repeat match goal with |- context [String.eqb ?a tn] => destruct (String.eqb_spec a tn) as [<-|?] end;
        intros E H; inversion E; subst t; destruct H as [H|[H|H]]; try discriminate H; auto. }
    destruct (G _ Hl H) as [->|[->| ->]]; auto.
Qed.

(** ** Idempotence for the shipped template *)
Definition unsafe_leaf (l : list key * pyval) : bool :=
  match create_parser (snd l) with
  | Ok p => negb (reparse_safe p) && negb (p_cbf p && match p_type p with TFloat => true | _ => false end)
  | Err _ => false
  end.
Lemma default_wf : wfb config_default = true.
Proof. vm_compute. reflexivity. Qed.
Lemma default_distinct : distinct_keys config_default.
Proof. apply distinct_wfb, default_wf. Qed.
Lemma default_leaves_safe : existsb unsafe_leaf (leaves schema_leaf [] config_default) = false.
Proof. vm_compute. reflexivity. Qed.

Fixpoint plain_keysb (v : pyval) : bool :=
  match v with
  | VDict d => (fix go (l : pydict) : bool := match l with
       | [] => true
       | (k, x) :: r => match k with KStr s => negb (str_contains " -" s) | KInt _ => false end && plain_keysb x && go r end) d
  | _ => true
  end.
Lemma plain_keysb_ok v : plain_keysb v = true -> all_keys plain_key v.
Proof.
  induction v using pyval_ind'; intros Hv; try exact I. cbn [plain_keysb] in Hv. cbn [all_keys].
  induction H as [|[k x] d Hx H IH]; [exact I|].
  apply andb_true_iff in Hv. destruct Hv as [Hv H3]. apply andb_true_iff in Hv. destruct Hv as [H1 H2].
  split; [|split; [exact (Hx H2)|exact (IH H3)]]. destruct k; [|discriminate]. simpl. unfold plain.
  destruct (str_contains " -" s); [discriminate|reflexivity].
Qed.
Lemma default_plain : all_keys plain_key config_default.
Proof. apply plain_keysb_ok. vm_compute. reflexivity. Qed.
Lemma default_string : all_keys string_key config_default.
Proof. apply all_keys_plain_string, default_plain. Qed.

Lemma C06_revalidation_idempotent_pf : forall o user out tree,
  check_params o config_default user = Ok (out, tree) ->
  (forall p node q, param_at config_default p node -> has_type node "float" -> may_be_false node ->
     lookup out p = Some (VFloat (FFin q)) -> ~ (q == 0)%Q) ->
  check_params o config_default out = Ok (out, tree).
Proof.
  intros o user out tree Hc Hz. apply (check_params_idem o config_default user (out, tree) default_wf Hc).
  apply Forall_forall. intros [q n] Hin p Hp. cbn [fst snd] in *.
  pose proof default_leaves_safe as Hs. rewrite <- not_true_iff_false, existsb_exists in Hs.
  destruct (reparse_safe p) eqn:E; [left; reflexivity|right].
  assert (Hu : p_cbf p && match p_type p with TFloat => true | _ => false end = true).
  { destruct (p_cbf p && _) eqn:Eb; [reflexivity|]. exfalso. apply Hs. exists (q, n). split; [assumption|].
    unfold unsafe_leaf. cbn [snd]. rewrite Hp, E, Eb. reflexivity. }
  apply andb_true_iff in Hu. destruct Hu as [Hcb Ht].
  assert (Ht' : p_type p = TFloat) by (destruct (p_type p); congruence).
  split; [assumption|]. intros x Hx.
  destruct (leaves_param_at _ default_string _ _ _ Hin) as [r [-> Hr]]. cbn [app] in *.
  apply (Hz r n x Hr).
  - destruct (create_parser_type _ _ Hp) as [d [tn [-> [Hd Hl]]]]. rewrite Ht' in Hl.
    unfold has_type, entry. rewrite Hd. f_equal. f_equal. clear -Hl. unfold parser_types in Hl. cbn [type_lookup] in Hl.
    revert Hl. repeat match goal with |- context [String.eqb ?a tn] => destruct (String.eqb_spec a tn) as [<-|?] end; congruence.
  - destruct (create_parser_fields _ _ Hp) as [_ [Fc _]]. apply Fc, Hcb.
  - apply lookup_get. exact Hx.
Qed.

(** ** References *)
Lemma leaf_in params q n : distinct_keys params -> q <> [] -> lookup params q = Some n -> is_dict n = false ->
  In (keys_of q, n) (leaves value_leaf [] params).
Proof.
  intros Hd Hq Hl Hn. clear Hd.
  assert (G : forall q pre v, q <> [] -> lookup v q = Some n -> In (pre ++ keys_of q, n) (leaves value_leaf pre v)).
  { clear q Hq Hl params. induction q as [|k q IH]; intros pre v Hne Hl; [congruence|].
    destruct v as [| | | | | |d]; try discriminate Hl. cbn [lookup] in Hl.
    destruct (dget d (KStr k)) as [x|] eqn:E; [|discriminate]. apply dget_In in E.
    rewrite leaves_dict. apply in_flat_map. exists (KStr k, x). split; [assumption|]. cbn [fst snd].
    destruct q as [|k2 q].
    - inversion Hl; subst x. unfold value_leaf. rewrite Hn. left. reflexivity.
    - assert (value_leaf x = false) as -> by (destruct x; try discriminate Hl; reflexivity).
      specialize (IH (pre ++ [KStr k]) x). rewrite <- app_assoc in IH. apply IH; [discriminate|assumption]. }
  apply (G q [] params); assumption.
Qed.

Lemma C07_no_reference_unchanged_pf : forall params params' q n,
  distinct_keys params -> parse_param_values params = Ok params' ->
  q <> [] -> lookup params q = Some n -> is_dict n = false ->
  (forall s, n = VStr s -> no_brace s) ->
  lookup params' q = Some n.
Proof.
  intros params params' q n Hd Hp Hq Hl Hn Hs. apply lookup_get.
  apply (resolve_unchanged params params' (keys_of q) n); [apply distinct_wfb; assumption|assumption| |].
  - apply leaf_in; assumption.
  - intros s E. apply findall_no_brace, Hs, E.
Qed.

Lemma C07_reference_resolved_pf : forall params params' q pre post target other,
  distinct_keys params -> parse_param_values params = Ok params' ->
  q <> [] -> target <> [] -> Forall plain target ->
  no_brace pre -> no_brace post -> ref_name (str_join " - " target) -> no_brace other ->
  lookup params q = Some (VStr (with_ref pre (str_join " - " target) post)) ->
  lookup params target = Some (VStr other) ->
  lookup params' q = Some (VStr (pre ++ other ++ post)).
Proof.
  intros params params' q pre post target other Hd Hp Hq Ht Hpl Hpre Hpost Hm Ho Hl1 Hl2. apply lookup_get.
  rewrite <- (replace_with_ref pre (str_join " - " target) post other Hpre Hpost).
  apply (resolve_single params params' (keys_of q) _ (str_join " - " target) (keys_of target) other).
  - apply distinct_wfb; assumption.
  - assumption.
  - apply leaf_in; auto.
  - apply findall_with_ref; assumption.
  - rewrite split_join by assumption. reflexivity.
  - apply leaf_in; auto.
  - apply findall_no_brace, Ho.
Qed.

(** ** Dictionary laws *)
Lemma C08_set_then_get_pf : forall v p x v', set_nested v (map KStr p) x = Ok v' ->
  lookup v' p = Some x /\
  (forall q, ~ prefix_of q p -> ~ prefix_of p q -> lookup v' q = lookup v q) /\
  (forall y, set_nested v' (map KStr p) y = set_nested v (map KStr p) y).
Proof.
  intros v p x v' H. split; [|split].
  - apply lookup_get. eapply get_set_same; eauto.
  - intros q H1 H2.
    assert (E : get_nested v' (keys_of q) = get_nested v (keys_of q)).
    { eapply get_set_other; [exact H|]. split; unfold keys_of; rewrite <- prefix_of_iff; assumption. }
    destruct (lookup v q) as [y|] eqn:Ev.
    + apply lookup_get. apply lookup_get in Ev. congruence.
    + destruct (lookup v' q) as [z|] eqn:Ev'; [|reflexivity]. apply lookup_get in Ev'. rewrite E in Ev'.
      apply lookup_get in Ev'. congruence.
  - intros y. eapply set_set; eauto.
Qed.
Lemma C08_set_same_pf : forall v p x, p <> [] -> lookup v p = Some x -> set_nested v (map KStr p) x = Ok v.
Proof.
  intros v p x Hp H. apply set_get_id; [destruct p; [congruence|discriminate]|apply str_path_keys_of|].
  apply lookup_get in H. exact H.
Qed.
Lemma C08_set_succeeds_pf : forall v p x, p <> [] ->
  (forall q w, prefix_of q p -> q <> p -> lookup v q = Some w -> is_dict w = true) ->
  exists v', set_nested v (map KStr p) x = Ok v'.
Proof.
  intros v p x Hp H. apply set_nested_ok; [destruct p; [congruence|discriminate]|].
  intros q w Hq Hne Hg.
  assert (Hs : str_path q).
  { clear -Hq. revert p Hq. induction q as [|k q IH]; intros p Hq; [constructor|].
    destruct p as [|s p]; [destruct Hq|]. destruct Hq as [-> Hq]. constructor; [eauto|]. eapply IH, Hq. }
  destruct (str_path_ex _ Hs) as [r ->]. apply (H r w).
  - apply prefix_of_iff. exact Hq.
  - intros ->. apply Hne. reflexivity.
  - apply lookup_get. exact Hg.
Qed.
Lemma C08_flatten_pf : forall v, distinct_keys v -> all_keys plain_key v -> is_dict v = true ->
  exists fl, flatten default_leaf_criterium v = Ok fl /\
    forall p n, p <> [] -> Forall plain p ->
      (dget fl (KStr (str_join " - " p)) = Some n <-> (lookup v p = Some n /\ is_dict n = false)).
Proof.
  intros v Hd Hk Hv.
  destruct (flatten_default_ok v Hv (all_keys_plain_string _ Hk) [] [] (Forall_nil _)) as [fl Hf].
  exists fl. split; [exact Hf|]. apply flatten_spec; assumption.
Qed.

Lemma C09_no_placeholder_pf : forall u p,
  In p ["currency_unit"; "emissionsrate_unit"; "emissions_unit"; "temperature_unit"; "population_unit"] ->
  str_contains p (parse_default_units u) = false.
Proof. intros u p H. apply no_placeholder_left. exact H. Qed.
