(** Configurations that are accepted (C54), and unknown references (C07). *)
From Verif Require Import PyBase NestedDict NestedDictFacts Parsers Config ConfigDefault ConfigFacts ConfigFacts2 ConfigFacts3
  ConfigSpec ConfigBridge RefFacts ConfigLemmas ConfigRefuted InstFacts.
Import ListNotations.
Open Scope string_scope.
Open Scope list_scope.

(** *** Specification *)
(** A parameter whose value is a dictionary. *)
Definition container (node : pyval) : Prop := has_type node "dict" \/ has_type node "datasource".

Lemma bind_ok {A B} (x : result A) (f : A -> result B) y : bind x f = Ok y -> exists a, x = Ok a /\ f a = Ok y.
Proof. destruct x; cbn; [eauto|discriminate]. Qed.

(** *** References to parameters that do not exist *)
Lemma get_nested_dict_get v p x : get_nested v (keys_of p) = Ok x -> dict_get v (keys_of p) = Some x.
Proof. intros H. rewrite <- lookup_dict_get. apply lookup_get, H. Qed.
Lemma C07_unknown_reference_kept_pf : forall params params' q pre post target,
  distinct_keys params -> parse_param_values params = Ok params' ->
  q <> [] -> target <> [] -> Forall plain target ->
  no_brace pre -> no_brace post -> ref_name (str_join " - " target) ->
  lookup params q = Some (VStr (with_ref pre (str_join " - " target) post)) ->
  lookup params target = None ->
  lookup params' q = Some (VStr (with_ref pre (str_join " - " target) post)).
Proof.
  intros params params' q pre post target D P Q T PL B1 B2 RN L N. apply lookup_get.
  pose proof D as W. apply distinct_wfb in W.
  destruct (resolve_at_leaf params params' (keys_of q) _ W P (leaf_in _ _ _ D Q L eq_refl)) as (s & s' & L1 & L2 & HL & F & R & G & E & _).
  rewrite E. unfold resolve_leaf in R. cbn [fst snd] in R. rewrite (findall_with_ref _ _ _ B1 RN B2) in R. cbn [fold_result] in R.
  unfold resolve_match in R. rewrite (split_join _ T PL) in R. change (map KStr target) with (keys_of target) in R.
  assert (SH : shape s = shape params).
  { eapply resolve_fold_shape; [|exact F]. intros q' n' I. assert (I' : In (q', n') (leaves value_leaf [] params)) by (rewrite HL; apply in_app_iff; left; exact I).
    exists n'. split; [apply (leaves_dict_get value_leaf params W [] q' n' I')|apply value_leaf_true; eapply leaves_crit, I']. }
  destruct (get_nested s (keys_of target)) as [x|e] eqn:GT.
  - exfalso. apply get_nested_dict_get in GT. rewrite lookup_dict_get in N.
    pose proof (dict_get_shape s (keys_of target)) as K. rewrite SH, dict_get_shape, GT, N in K. discriminate K.
  - destruct e; try discriminate R. cbn [bind] in R. injection R as <-. exact G.
Qed.

(** *** Valid configurations are accepted *)
Section Accept.
  Variable o : oracles.

  Lemma ptree_set_ok ks x : forall t, ks <> [] ->
    (forall p, is_prefix p ks -> p <> ks -> ptree_get t p = Err KeyError \/ exists d, ptree_get t p = Ok (PNode d)) ->
    exists t', ptree_set t ks x = Ok t'.
  Proof.
    induction ks as [|k ks IH]; intros t NE H; [congruence|]. cbn [ptree_set].
    destruct (H [] I ltac:(discriminate)) as [E|[d E]]; [discriminate E|]. cbn in E. injection E as ->.
    destruct ks as [|k2 ks]; [eauto|].
    destruct (IH (match dget d k with Some s => s | None => PNode [] end)) as [t' E]; [discriminate| |rewrite E; cbn [bind]; eauto].
    intros p Pp Pn. specialize (H (k :: p) (conj eq_refl Pp)). cbn [ptree_get] in H. destruct (dget d k) as [s|] eqn:G.
    - apply H. congruence.
    - destruct p; [right; eexists; reflexivity|left; reflexivity].
  Qed.
  Lemma state_prefix user L st q : parsed_inv o user L st -> (forall q' n', In (q', n') L -> incomparable q' q) ->
    forall p, is_prefix p q -> p <> q ->
      (get_nested (fst st) p = Err KeyError /\ ptree_get (snd st) p = Err KeyError) \/
      ((exists d, get_nested (fst st) p = Ok (VDict d)) /\ exists d, ptree_get (snd st) p = Ok (PNode d)).
  Proof.
    intros (I1 & I2 & I3) INC p P NE. destruct p as [|k p]; [right; apply I3; left; reflexivity|]. set (p' := k :: p) in *.
    destruct (comparable_or L p') as [A|(ql & nl & HI & [C|C])].
    - left. apply I2; [discriminate|exact A].
    - right. apply I3. right. exists ql, nl. split; [exact HI|]. split; [exact C|]. intros E. subst ql. apply (proj1 (INC _ _ HI)), P.
    - exfalso. apply (proj1 (INC _ _ HI)). eapply is_prefix_trans; [exact C|exact P].
  Qed.
  Lemma fold_accept user : forall L2 L1 st,
    ForallOrdPairs leaf_inc (L1 ++ L2) -> Forall (fun l => fst l <> []) L2 ->
    parsed_inv o user L1 st ->
    (forall q n, In (q, n) L2 -> exists p v, create_parser n = Ok p /\ parser_get o p user q = Ok v) ->
    exists st', fold_result (parse_leaf o user) L2 st = Ok st'.
  Proof.
    induction L2 as [|[q n] L2 IH]; intros L1 st F NE INV OK; [eexists; reflexivity|]. cbn [fold_result].
    assert (INC : forall q' n', In (q', n') L1 -> incomparable q' q).
    { intros q' n' HI. apply FOP_split in F as [F _]. rewrite Forall_forall in F. apply (F _ HI). }
    apply Forall_cons_iff in NE as [NQ NE]. cbn in NQ.
    destruct (OK q n (or_introl eq_refl)) as (p & v & CP & PG).
    pose proof (state_prefix _ _ _ _ INV INC) as SP. destruct st as [parsed tree].
    assert (S1 : exists tree', ptree_set tree q p = Ok tree').
    { apply ptree_set_ok; [exact NQ|]. intros r R1 R2. destruct (SP r R1 R2) as [[_ E]|[_ E]]; auto. }
    assert (S2 : exists parsed', set_nested parsed q v = Ok parsed').
    { apply set_nested_ok; [exact NQ|]. intros r w R1 R2 G. destruct (SP r R1 R2) as [[E _]|[[d E] _]]; cbn [fst] in E; rewrite E in G; [discriminate|].
      injection G as <-. reflexivity. }
    destruct S1 as [tree' S1], S2 as [parsed' S2].
    assert (ST : parse_leaf o user (parsed, tree) (q, n) = Ok (parsed', tree')).
    { unfold parse_leaf. rewrite CP. cbn [bind]. rewrite S1. cbn [bind]. rewrite PG. cbn [bind]. rewrite S2. reflexivity. }
    rewrite ST. cbn [bind]. apply (IH (L1 ++ [(q, n)])).
    - rewrite <- app_assoc. exact F.
    - exact NE.
    - eapply parsed_inv_step; eassumption.
    - intros; apply OK; right; assumption.
  Qed.

  (** flatten succeeds when the criterion does, and only dictionaries are entered *)
  Lemma flatten_accept crit v : (exists d, v = VDict d) -> wfb v = true -> forall curr flat,
    (forall r n, r <> [] -> dict_get v r = Some n ->
       (forall r1 n1, r1 <> [] -> is_prefix r1 r -> r1 <> r -> dict_get v r1 = Some n1 -> crit (curr ++ r1) n1 = Ok false) ->
       (crit (curr ++ r) n = Ok true /\ exists s, join_keys (curr ++ r) = Ok s) \/ (crit (curr ++ r) n = Ok false /\ is_dict n = true)) ->
    exists fl, flatten_aux crit curr flat v = Ok fl.
  Proof.
    induction v using pyval_ind'; intros [d0 E] W curr flat C; try discriminate E. clear d0 E.
    rewrite flatten_aux_dict. apply wfb_dict in W as [ND W].
    assert (G : forall l flat, incl l d -> exists fl, flat_go crit curr l flat = Ok fl); [|apply G, incl_refl].
    clear flat. induction l as [|[k x] l IHl]; intros flat IN; [eexists; reflexivity|]. cbn [flat_go].
    assert (KX : In (k, x) d) by (apply IN; left; reflexivity).
    assert (DX : dict_get (VDict d) [k] = Some x) by (cbn; rewrite (In_dget _ _ _ ND KX); reflexivity).
    assert (IL : incl l d) by (intros y Y; apply IN; right; exact Y).
    destruct (C [k] x) as [[C1 [s C2]]|[C1 C2]]; [discriminate|exact DX| | |].
    - intros r1 n1 R1 R2 R3 _. destruct r1 as [|k1 r1]; [congruence|]. cbn in R2. destruct R2 as [-> R2]. destruct r1; [congruence|destruct R2].
    - rewrite C1. cbn [bind]. rewrite C2. cbn [bind]. apply IHl, IL.
    - rewrite C1. cbn [bind]. rewrite Forall_forall in H.
      assert (DD : exists d1, x = VDict d1) by (destruct x; try discriminate C2; eauto).
      destruct (H _ KX DD (W _ _ KX) (curr ++ [k]) flat) as [fl FL]; [|cbn [snd] in FL; rewrite FL; cbn [bind]; apply IHl, IL].
      intros r n NE GR PR. rewrite <- app_assoc. cbn [app]. apply (C (k :: r) n); [discriminate|cbn; rewrite (In_dget _ _ _ ND KX); exact GR|].
      intros r1 n1 R1 R2 R3 G1. destruct r1 as [|k1 r1]; [congruence|]. destruct R2 as [-> R2]. cbn in G1. rewrite (In_dget _ _ _ ND KX) in G1.
      destruct r1 as [|k2 r1]; [injection G1 as <-; exact C1|]. cbn [snd] in PR.
      specialize (PR (k2 :: r1) n1 ltac:(discriminate) R2 ltac:(congruence) G1). rewrite <- app_assoc in PR. exact PR.
  Qed.
  Lemma flat_at_intro crit r : forall v curr n, r <> [] -> wfb v = true -> dict_get v r = Some n -> crit (curr ++ r) n = Ok true ->
    (forall r1 n1, r1 <> [] -> is_prefix r1 r -> r1 <> r -> dict_get v r1 = Some n1 -> crit (curr ++ r1) n1 = Ok false) ->
    flat_at crit curr v (curr ++ r) n.
  Proof.
    induction r as [|k r IH]; intros v curr n NE W G C F; [congruence|]. destruct v as [| | | | | |d]; try discriminate. cbn in G.
    destruct (dget d k) as [x|] eqn:E; [|discriminate]. pose proof (dget_In _ _ _ E) as IN. destruct r as [|k2 r].
    - injection G as ->. apply fa_leaf; assumption.
    - apply wfb_dict in W as [ND W]. eapply fa_node; [exact IN| |].
      + apply (F [k] x); [discriminate|cbn; auto|discriminate|cbn; rewrite E; reflexivity].
      + replace (curr ++ k :: k2 :: r) with ((curr ++ [k]) ++ k2 :: r) by (rewrite <- app_assoc; reflexivity).
        apply IH; [discriminate|exact (W _ _ IN)|exact G|rewrite <- app_assoc; exact C|].
        intros r1 n1 R1 R2 R3 G1. rewrite <- app_assoc. apply (F (k :: r1) n1); [discriminate|split; [reflexivity|exact R2]|congruence|].
        cbn. rewrite E. exact G1.
  Qed.

  Lemma get_err r : forall v e, get_nested v (keys_of r) = Err e -> e = KeyError \/
    exists r1 w, prefix_of r1 r /\ r1 <> r /\ lookup v r1 = Some w /\ is_dict w = false.
  Proof.
    induction r as [|k r IH]; intros v e H; [discriminate H|]. cbn [keys_of map get_nested] in H.
    destruct v as [| | | | | |d]; try (right; exists [], (ltac:(match goal with H : context [subscript ?v _] |- _ => exact v end)); cbn; repeat split; auto; discriminate).
    cbn [subscript] in H. destruct (dget d (KStr k)) as [x|] eqn:E; cbn [bind] in H; [|left; congruence].
    destruct (IH _ _ H) as [->|(r1 & w & R1 & R2 & R3 & R4)]; [left; reflexivity|right]. exists (k :: r1), w. cbn. rewrite E. repeat split; auto. congruence.
  Qed.

  Variable user : pyval.
  Hypothesis user_dict : is_dict user = true.
  Hypothesis user_distinct : distinct_keys user.
  Hypothesis user_strings : all_keys string_key user.
  Hypothesis declared : forall p v, p <> [] -> lookup user p = Some v -> is_dict v = false ->
    exists q node, param_at config_default q node /\ (p = q \/ (prefix_of q p /\ container node)).
  Hypothesis no_dict : forall p node v, param_at config_default p node -> ~ container node -> lookup user p = Some v -> is_dict v = false.
  Hypothesis parses : forall p node pr, param_at config_default p node -> create_parser node = Ok pr ->
    exists v, parse o pr (match lookup user p with Some raw => raw | None => default_of node end) = Ok v.

  Let L := leaves schema_leaf [] config_default.
  Lemma all_create : forallb (fun l => match create_parser (snd l) with
      | Ok p => match p_type p with TStrOrPlainDict => false | TEnum => forallb (fun v => negb (is_dict v)) (p_allowed p) | TDict | TDatasource => true | _ => negb (is_dict (p_default p)) end
      | Err _ => false end) L = true.
  Proof. vm_compute. reflexivity. Qed.
  Lemma leaf_param q n : In (q, n) L -> exists p, q = keys_of p /\ param_at config_default p n.
  Proof. intros H. destruct (leaves_param_at _ default_string _ _ _ H) as (p & -> & P). exists p. auto. Qed.
  Lemma leaf_inc_L q1 n1 q2 n2 : In (q1, n1) L -> In (q2, n2) L -> is_prefix q1 q2 -> q1 = q2.
  Proof.
    intros H1 H2 P. destruct (list_eq_dec key_dec q1 q2) as [E|NE]; [exact E|exfalso].
    pose proof (leaves_incomparable schema_leaf config_default default_wf []) as F. fold L in F.
    apply ForallOrdPairs_In with (x := (q1, n1)) (y := (q2, n2)) in F; [|assumption|assumption].
    unfold leaf_inc, incomparable in F. cbn in F. destruct F as [F|[F|F]]; [congruence|tauto|tauto].
  Qed.
  Lemma container_type n p : create_parser n = Ok p -> (container n <-> p_type p = TDict \/ p_type p = TDatasource).
  Proof.
    intros C. split.
    - intros [H|H]; apply (has_type_lookup _ _ _ C) in H; cbn in H; injection H as ->; auto.
    - intros H. destruct (dict_typed_parser _ _ C H) as (d & -> & D). exact D.
  Qed.
  (** user values at or below a parameter *)
  Lemma user_get q n : In (q, n) L -> exists p v, create_parser n = Ok p /\ parser_get o p user q = Ok v /\
    (~ container n -> is_dict v = false).
  Proof.
    intros H. pose proof all_create as A. rewrite forallb_forall in A. specialize (A _ H). cbn [snd] in A.
    destruct (create_parser n) as [p|] eqn:C; [|discriminate]. destruct (leaf_param _ _ H) as (r & -> & P).
    destruct (parses _ _ _ P C) as [v V]. exists p, v. split; [reflexivity|].
    assert (PG : parser_get o p user (keys_of r) = Ok v).
    { unfold parser_get. destruct (get_nested user (keys_of r)) as [x|e] eqn:G.
      - apply lookup_get in G. rewrite G in V. exact V.
      - assert (E : e = KeyError).
        { clear - G P declared user_dict user_distinct H.
          destruct (get_err _ _ _ G) as [E|(r1 & w & R1 & R2 & R3 & R4)]; [exact E|exfalso].
          destruct r1 as [|k r1]; [injection R3 as <-; congruence|].
          assert (NN : k :: r1 <> []) by discriminate. destruct (declared (k :: r1) w NN R3 R4) as (q & n' & P' & Q).
          assert (PR : prefix_of q (k :: r1)) by (destruct Q as [<-|[Q _]]; [apply prefix_of_iff, is_prefix_refl|exact Q]).
          pose proof (param_at_leaves _ _ _ P' []) as H'. cbn [app] in H'.
          apply prefix_of_iff in PR, R1.
          assert (E : keys_of q = keys_of r) by (eapply leaf_inc_L; [exact H'|exact H|eapply is_prefix_trans; eassumption]).
          rewrite E in PR. apply R2, keys_of_inj, is_prefix_antisym; assumption. }
        subst e. apply get_keyerror_lookup in G. rewrite G in V. destruct (create_parser_fields _ _ C) as [-> _]. exact V. }
    split; [exact PG|]. intros NC. rewrite (container_type _ _ C) in NC.
    set (raw := match lookup user r with Some x => x | None => default_of n end) in V.
    assert (RD : p_type p = TQuantity -> is_dict raw = false).
    { intros T. unfold raw. destruct (lookup user r) as [x|] eqn:LX.
      - eapply no_dict; [exact P| |exact LX]. rewrite (container_type _ _ C), T. intros [X|X]; discriminate X.
      - rewrite T in A. destruct (create_parser_fields _ _ C) as [<- _]. destruct (is_dict (p_default p)); [discriminate A|reflexivity]. }
    clearbody raw. destruct p as [ty d c mn mx al u vp kp]. cbn [p_type p_allowed p_default] in *. cbn [parse] in V.
    destruct (c && is_falsy raw); [injection V as <-; reflexivity|].
    destruct ty; try discriminate A; try tauto.
    - apply bind_ok in V as (f & _ & V). apply check_bounds_id in V. subst. reflexivity.
    - apply bind_ok in V as (f & _ & V). apply check_bounds_id in V. subst. reflexivity.
    - destruct (is_truthy raw); [injection V as <-; reflexivity|]. destruct (is_falsy raw); [injection V as <-; reflexivity|discriminate].
    - injection V as <-. reflexivity.
    - destruct (py_in raw al) eqn:I; [injection V as <-|discriminate]. unfold py_in in I. apply existsb_exists in I as (w & W1 & W2).
      rewrite forallb_forall in A. specialize (A _ W1). destruct raw; try reflexivity. destruct w; try discriminate W2. discriminate A.
    - assert (v = raw) by (destruct (quant o raw u false) as [q|[]]; congruence). subst. apply RD. reflexivity.
    - destruct raw; try discriminate; [injection V as <-; reflexivity|]. apply bind_ok in V as (l' & _ & V). injection V as <-. reflexivity.
    - injection V as <-. reflexivity.
  Qed.

  Lemma dict_get_nested r : forall v n, dict_get v r = Some n -> get_nested v r = Ok n.
  Proof.
    induction r as [|k r IH]; intros v n H; [injection H as <-; reflexivity|]. destruct v as [| | | | | |d]; try discriminate. cbn in H |- *.
    destruct (dget d k); [cbn [bind]; auto|discriminate].
  Qed.
  Lemma dict_get_string r : forall v n, all_keys string_key v -> dict_get v r = Some n -> exists p, r = keys_of p.
  Proof.
    induction r as [|k r IH]; intros v n A H; [exists []; reflexivity|]. destruct v as [| | | | | |d]; try discriminate. cbn in H.
    destruct (dget d k) as [x|] eqn:E; [|discriminate]. destruct (all_keys_in _ _ _ _ A (dget_In _ _ _ E)) as [A1 A2].
    destruct (IH _ _ A2 H) as [p ->]. destruct k as [s|]; [|destruct A1]. exists (s :: p). reflexivity.
  Qed.
  Lemma dict_get_prefix q r : forall v x, dict_get v r = Some x -> is_prefix q r -> exists y, dict_get v q = Some y.
  Proof.
    revert r. induction q as [|k q IH]; intros r v x G P; [eexists; reflexivity|]. destruct r as [|k2 r]; [destruct P|]. destruct P as [<- P].
    destruct v as [| | | | | |d]; try discriminate. cbn in G |- *. destruct (dget d k); [|discriminate]. eapply IH; eassumption.
  Qed.
  Lemma flat_at_elim crit v curr q n : flat_at crit curr v q n -> wfb v = true ->
    exists r, q = curr ++ r /\ r <> [] /\ dict_get v r = Some n /\ crit q n = Ok true /\
      forall r1 n1, r1 <> [] -> is_prefix r1 r -> r1 <> r -> dict_get v r1 = Some n1 -> crit (curr ++ r1) n1 = Ok false.
  Proof.
    induction 1 as [curr d k m IN C|curr d k m q n IN C FA IH]; intros W; apply wfb_dict in W as [ND W].
    - exists [k]. repeat split; [discriminate|cbn; rewrite (In_dget _ _ _ ND IN); reflexivity|exact C|].
      intros r1 n1 R1 R2 R3 _. destruct r1 as [|k1 r1]; [congruence|]. cbn in R2. destruct R2 as [-> R2]. destruct r1; [congruence|destruct R2].
    - destruct (IH (W _ _ IN)) as (r & -> & NE & G & CT & F). exists (k :: r). repeat split; [rewrite <- app_assoc; reflexivity|discriminate| |exact CT|].
      + cbn. rewrite (In_dget _ _ _ ND IN). exact G.
      + intros r1 n1 R1 R2 R3 G1. destruct r1 as [|k1 r1]; [congruence|]. destruct R2 as [-> R2]. cbn in G1. rewrite (In_dget _ _ _ ND IN) in G1.
        destruct r1 as [|k2 r1]; [injection G1 as <-; exact C|]. specialize (F (k2 :: r1) n1 ltac:(discriminate) R2 ltac:(congruence) G1).
        rewrite <- app_assoc in F. exact F.
  Qed.

  Lemma parse_params_ok : exists st, parse_params o config_default user = Ok st.
  Proof.
    assert (E : parse_params o config_default user = fold_result (parse_leaf o user) L (VDict [], PNode [])) by reflexivity.
    rewrite E. apply (fold_accept user L []).
    - apply leaves_incomparable, default_wf.
    - rewrite Forall_forall. intros [q n] H. destruct (leaves_prefix _ _ _ _ _ H) as (k & r & ->). discriminate.
    - apply parsed_inv_nil.
    - intros q n H. destruct (user_get q n H) as (p & v & A & B & _). eauto.
  Qed.
  Lemma user_wf : wfb user = true.
  Proof. apply distinct_wfb, user_distinct. Qed.

  Section State.
    Variable st : pyval * ptree.
    Hypothesis PP : parse_params o config_default user = Ok st.
    Let INV : parsed_inv o user L st := parse_params_inv o config_default user st default_wf PP.
    Let crit := obsolete_leaf (snd st).

    Lemma at_leaf q n x : In (q, n) L -> crit q x = Ok true \/ (~ container n /\ crit q x = Ok (negb (is_dict x))).
    Proof.
      intros H. destruct INV as (I1 & _ & _). destruct (I1 _ _ H) as (p & v & C & _ & _ & T). unfold crit, obsolete_leaf. rewrite T.
      destruct (p_type p) eqn:E; auto; right; (split; [|reflexivity]); rewrite (container_type _ _ C), E; intros [X|X]; discriminate X.
    Qed.
    Lemma leaf_container q n x : In (q, n) L -> container n -> crit q x = Ok true.
    Proof. intros H K. destruct (at_leaf q n x H) as [E|[E _]]; [exact E|contradiction]. Qed.
    (** where a non-empty path lies with respect to the parameters *)
    Lemma position r : r <> [] ->
      (exists n, In (r, n) L) \/
      (exists q n, In (q, n) L /\ is_prefix q r /\ q <> r) \/
      ((forall x, crit r x = Ok (negb (is_dict x))) /\
       ((exists q n, In (q, n) L /\ is_prefix r q /\ r <> q) \/ (forall q n, In (q, n) L -> incomparable r q))).
    Proof.
      intros NE. destruct INV as (_ & I2 & I3). destruct (comparable_or L r) as [A|(q & n & H & [C|C])].
      - right; right. split; [|right; exact A]. intros x. unfold crit, obsolete_leaf. destruct (I2 r NE A) as [_ ->]. reflexivity.
      - destruct (list_eq_dec key_dec r q) as [<-|N]; [left; eauto|]. right; right. split; [|left; eauto].
        intros x. unfold crit, obsolete_leaf. destruct (I3 r) as [_ [d ->]]; [right; eauto|reflexivity].
      - destruct (list_eq_dec key_dec q r) as [<-|N]; [left; eauto|]. right; left. eauto.
    Qed.
    (** nothing below a parameter is visited *)
    Lemma user_below r q n : In (q, n) L -> is_prefix q r -> q <> r -> (exists x, dict_get user r = Some x) ->
      (forall r1 n1, r1 <> [] -> is_prefix r1 r -> r1 <> r -> dict_get user r1 = Some n1 -> crit r1 n1 = Ok false) -> False.
    Proof.
      intros H P N [x X] F. destruct (dict_get_prefix _ _ _ _ X P) as [y Y].
      assert (NE : q <> []) by (destruct (leaves_prefix _ _ _ _ _ H) as (k & r' & ->); discriminate).
      specialize (F q y NE P N Y). destruct (at_leaf q n y H) as [E|[NC E]]; [congruence|]. rewrite E in F. injection F as F.
      destruct (leaf_param _ _ H) as (p & -> & PA). rewrite <- lookup_dict_get in Y. rewrite (no_dict _ _ _ PA NC Y) in F. discriminate.
    Qed.
    Lemma parsed_leaf q n x : In (q, n) L -> get_nested (fst st) q = Ok x -> crit q x = Ok true.
    Proof.
      intros H G. destruct (at_leaf q n x H) as [E|[NC E]]; [exact E|]. rewrite E. f_equal.
      destruct INV as (I1 & _ & _). destruct (I1 _ _ H) as (p & v & C & PG & G' & _).
      destruct (user_get _ _ H) as (p' & v' & C' & PG' & D). assert (x = v') by congruence. subst. rewrite (D NC). reflexivity.
    Qed.
    Lemma parsed_below r q n : In (q, n) L -> is_prefix q r -> q <> r -> (exists x, dict_get (fst st) r = Some x) ->
      (forall r1 n1, r1 <> [] -> is_prefix r1 r -> r1 <> r -> dict_get (fst st) r1 = Some n1 -> crit r1 n1 = Ok false) -> False.
    Proof.
      intros H P N [x X] F. destruct (dict_get_prefix _ _ _ _ X P) as [y Y].
      assert (NE : q <> []) by (destruct (leaves_prefix _ _ _ _ _ H) as (k & r' & ->); discriminate).
      specialize (F q y NE P N Y). rewrite (parsed_leaf _ _ _ H (dict_get_nested _ _ _ Y)) in F. discriminate.
    Qed.
    Lemma parsed_wf : wfb (fst st) = true.
    Proof.
      eapply parse_params_wf; [exact default_wf|exact user_wf| |exact PP]. intros q n H. destruct (leaf_param _ _ H) as (p & -> & _). apply str_path_keys_of.
    Qed.
    Lemma parsed_dict : exists d, fst st = VDict d.
    Proof. destruct INV as (_ & _ & I3). destruct (I3 []) as [[d E] _]; [left; reflexivity|]. cbn in E. injection E as E. eauto. Qed.
    Lemma user_dict' : exists d, user = VDict d.
    Proof. destruct user; try discriminate user_dict. eauto. Qed.
    Lemma flatten_user : exists fl, flatten crit user = Ok fl.
    Proof.
      apply flatten_accept; [exact user_dict'|exact user_wf|]. cbn [app]. intros r x NE G F.
      destruct (dict_get_string _ _ _ user_strings G) as [p EP].
      assert (J : exists s, join_keys r = Ok s) by (rewrite EP; eexists; apply join_keys_map).
      assert (B : crit r x = Ok (negb (is_dict x)) -> (crit r x = Ok true /\ exists s, join_keys r = Ok s) \/ (crit r x = Ok false /\ is_dict x = true)).
      { intros E. rewrite E. destruct (is_dict x); [right|left]; auto. }
      destruct (position r NE) as [[n H]|[(q & n & H & P & N)|[C _]]].
      - destruct (at_leaf _ _ x H) as [E|[_ E]]; [left; auto|exact (B E)].
      - exfalso. eapply user_below; eauto.
      - exact (B (C x)).
    Qed.
    Lemma flatten_parsed : exists fl, flatten crit (fst st) = Ok fl.
    Proof.
      apply flatten_accept; [exact parsed_dict|exact parsed_wf|]. cbn [app]. intros r x NE G F.
      destruct (position r NE) as [[n H]|[(q & n & H & P & N)|[C [(q & n & H & P & N)|A]]]].
      - left. split; [eapply parsed_leaf; [exact H|apply dict_get_nested, G]|]. destruct (leaf_param _ _ H) as (p & -> & _). eexists. apply join_keys_map.
      - exfalso. eapply parsed_below; eauto.
      - right. destruct INV as (_ & _ & I3). destruct (I3 r) as [[d D] _]; [right; eauto|]. rewrite (dict_get_nested _ _ _ G) in D. injection D as ->.
        split; [apply C|reflexivity].
      - exfalso. destruct INV as (_ & I2 & _). destruct (I2 r NE A) as [E _]. rewrite (dict_get_nested _ _ _ G) in E. discriminate.
    Qed.
    Lemma user_leaf r x : flat_at crit [] user r x -> exists n, In (r, n) L.
    Proof.
      intros FA. destruct (flat_at_elim _ _ _ _ _ FA user_wf) as (r' & E & NE & G & C & F). cbn [app] in *. subst r'.
      destruct (position r NE) as [H|[(q & n & H & P & N)|[C' W]]]; [exact H|exfalso; eapply user_below; eauto|exfalso].
      rewrite C' in C. injection C as C. apply negb_true_iff in C.
      destruct (dict_get_string _ _ _ user_strings G) as [p EP]. subst r. rewrite <- lookup_dict_get in G.
      assert (NP : p <> []) by (intros ->; apply NE; reflexivity).
      destruct (declared p x NP G C) as (q0 & n0 & PA & Q). pose proof (param_at_leaves _ _ _ PA []) as H0. cbn [app] in H0.
      assert (PR : is_prefix (keys_of q0) (keys_of p)) by (destruct Q as [<-|[Q _]]; [apply is_prefix_refl|apply prefix_of_iff, Q]).
      destruct W as [(q & n & H & P & N)|A].
      - assert (E : keys_of q0 = q) by (eapply leaf_inc_L; [exact H0|exact H|eapply is_prefix_trans; eassumption]). subst q.
        apply N, is_prefix_antisym; assumption.
      - apply (proj2 (A _ _ H0)), PR.
    Qed.
    Lemma obsolete_ok : check_obsolete_params user (fst st) (snd st) = Ok tt.
    Proof.
      unfold check_obsolete_params. destruct flatten_user as [fu FU], flatten_parsed as [fp FP]. unfold crit in FU, FP. rewrite FU, FP. cbn [bind].
      replace (forallb _ fu) with true; [reflexivity|]. symmetry. apply forallb_forall. intros [k v] IN. cbn [fst].
      assert (M : dmem fu k = true) by (apply dmem_In, in_map_iff; exists (k, v); auto).
      apply (flatten_keys _ _ _ _ _ FU) in M. destruct M as [M|(q & x & s & FA & J & ->)]; [discriminate|].
      destruct (user_leaf _ _ FA) as [n H]. apply (flatten_keys _ _ _ _ _ FP). right.
      destruct INV as (I1 & _ & I3). destruct (I1 _ _ H) as (p & w & C & PG & G & _). exists q, w, s. repeat split; [|exact J].
      destruct (leaf_param _ _ H) as (pp & E & _). subst q.
      assert (NE : keys_of pp <> []) by (destruct (leaves_prefix _ _ _ _ _ H) as (k & r' & ->); discriminate).
      apply (flat_at_intro crit (keys_of pp) (fst st) [] w NE parsed_wf).
      - apply get_nested_dict_get, G.
      - cbn [app]. eapply parsed_leaf; eassumption.
      - cbn [app]. intros r1 n1 R1 R2 R3 G1. destruct (position r1 R1) as [[n2 H2]|[(q & n2 & H2 & P & N)|[C2 [(q & n2 & H2 & P & N)|A]]]].
        + exfalso. apply R3. eapply leaf_inc_L; eassumption.
        + exfalso. assert (q = keys_of pp) by (eapply leaf_inc_L; [exact H2|exact H|eapply is_prefix_trans; eassumption]). subst q.
          apply R3, is_prefix_antisym; assumption.
        + destruct (I3 r1) as [[d D] _]; [right; exists q, n2; auto|]. rewrite (dict_get_nested _ _ _ G1) in D. injection D as ->. apply C2.
        + exfalso. apply (proj1 (A _ _ H)), R2.
    Qed.
  End State.
  Lemma accepted : exists st, check_params o config_default user = Ok st.
  Proof.
    destruct parse_params_ok as [st E]. exists st. unfold check_params. rewrite E. cbn [bind]. rewrite (obsolete_ok st E). reflexivity.
  Qed.
End Accept.

(** Every dictionary whose entries are declared parameters and whose values (or, where absent, the declared
    default) pass the parser of their parameter is accepted. *)
Lemma C54_valid_accepted_pf : forall o user,
  is_dict user = true -> distinct_keys user -> all_keys string_key user ->
  (forall p v, p <> [] -> lookup user p = Some v -> is_dict v = false ->
     exists q node, param_at config_default q node /\ (p = q \/ (prefix_of q p /\ container node))) ->
  (forall p node v, param_at config_default p node -> ~ container node -> lookup user p = Some v -> is_dict v = false) ->
  (forall p node pr, param_at config_default p node -> create_parser node = Ok pr ->
     exists v, parse o pr (match lookup user p with Some raw => raw | None => default_of node end) = Ok v) ->
  exists st, check_params o config_default user = Ok st.
Proof. intros; apply accepted; assumption. Qed.

Fixpoint keys_eqb (a b : list key) : bool :=
  match a, b with [], [] => true | x :: a, y :: b => key_eqb x y && keys_eqb a b | _, _ => false end.
Lemma keys_eqb_eq a : forall b, keys_eqb a b = true -> a = b.
Proof.
  induction a as [|x a IH]; intros [|y b] H; try discriminate; [reflexivity|]. cbn [keys_eqb] in H. apply andb_true_iff in H as [H1 H2].
  apply key_eqb_eq in H1. f_equal; auto.
Qed.
(** non-vacuity: [user_ex] (a carbon budget, a step of 10 years, an end year written as text) meets the hypotheses *)
Example C54_ex : exists st, check_params ok_oracles config_default user_ex = Ok st.
Proof.
  assert (PA : forall p node, param_at config_default p node -> In (keys_of p, node) (leaves schema_leaf [] config_default)).
  { intros p node P. apply (param_at_leaves _ _ _ P []). }
  assert (LK : forall p v, lookup user_ex p = Some v -> p = [] \/ p = ["emissions"] \/ p = ["time"] \/
     p = ["emissions"; "carbonbudget"] \/ p = ["time"; "dt"] \/ p = ["time"; "end"]).
  { intros p v H. destruct p as [|a p]; [auto|right]. unfold user_ex, d1 in H. cbn [lookup dget key_eqb] in H.
    destruct (String.eqb "emissions" a) eqn:E1.
    { apply String.eqb_eq in E1. subst. destruct p as [|b p]; [auto|]. cbn [lookup dget key_eqb] in H.
      destruct (String.eqb "carbonbudget" b) eqn:E2; [|discriminate]. apply String.eqb_eq in E2. subst. destruct p; [auto|discriminate]. }
    destruct (String.eqb "time" a) eqn:E1'; [|discriminate]. apply String.eqb_eq in E1'. subst. destruct p as [|b p]; [auto|]. cbn [lookup dget key_eqb] in H.
    destruct (String.eqb "dt" b) eqn:E2; [apply String.eqb_eq in E2; subst; destruct p; [auto|discriminate]|].
    destruct (String.eqb "end" b) eqn:E3; [apply String.eqb_eq in E3; subst; destruct p; [auto 10|discriminate]|discriminate]. }
  apply C54_valid_accepted_pf.
  - reflexivity.
  - apply distinct_wfb. vm_compute. reflexivity.
  - vm_compute. repeat split.
  - intros p v NE H D. assert (IN : forall q, existsb (fun l => keys_eqb (fst l) (keys_of q)) (leaves schema_leaf [] config_default) = true ->
      exists q' node, param_at config_default q' node /\ (q = q' \/ (prefix_of q' q /\ container node))).
    { intros q X. apply existsb_exists in X as ([k n] & Y & Z). cbn [fst] in Z. apply keys_eqb_eq in Z. subst k.
      destruct (leaves_param_at _ default_string _ _ _ Y) as (q' & E & P). cbn [app] in E. apply keys_of_inj in E. subst q'. exists q, n. auto. }
    destruct (LK p v H) as [E0|[E0|[E0|[E0|[E0|E0]]]]]; subst p; try congruence; try (vm_compute in H; injection H as <-; discriminate D); apply IN; vm_compute; reflexivity.
  - intros p node v P NC H. apply PA in P. destruct (LK p v H) as [E0|[E0|[E0|[E0|[E0|E0]]]]]; subst p; try (vm_compute in H; injection H as <-; reflexivity);
      exfalso; vm_compute in P; repeat (destruct P as [P|P]; [discriminate P|]); exact P.
  - intros p node pr P C. pose proof (PA _ _ P) as P'. clear P. rename P' into P.
    assert (A : forallb (fun l => match create_parser (snd l) with
        | Ok pr => match parse ok_oracles pr (match dict_get user_ex (fst l) with Some raw => raw | None => default_of (snd l) end) with Ok _ => true | Err _ => false end
        | Err _ => true end) (leaves schema_leaf [] config_default) = true) by (vm_compute; reflexivity).
    rewrite forallb_forall in A. specialize (A _ P). cbn [fst snd] in A. rewrite C, <- lookup_dict_get in A.
    destruct (parse ok_oracles pr _) as [v|]; [eauto|discriminate].
Qed.
