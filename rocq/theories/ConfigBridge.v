(** From the model's traversal functions to the specification vocabulary of ConfigSpec.v. *)
From Coq Require Import Lia.
From Verif Require Import PyBase NestedDict NestedDictFacts Parsers Config ConfigFacts ConfigFacts2
  ConfigFacts3 ConfigSpec.

Definition keys_of (p : path) : list key := map KStr p.

Lemma lookup_get v p x : lookup v p = Some x <-> get_nested v (keys_of p) = Ok x.
Proof.
  revert v; induction p as [|k p IH]; intros v; simpl; [split; congruence|].
  destruct v; simpl; try (split; congruence).
  destruct (dget d (KStr k)); simpl; [apply IH | split; congruence].
Qed.
Lemma get_keyerror_lookup v p : get_nested v (keys_of p) = Err KeyError -> lookup v p = None.
Proof.
  intros H. destruct (lookup v p) eqn:E; [|reflexivity]. apply lookup_get in E. congruence.
Qed.
Lemma prefix_of_iff p q : prefix_of p q <-> is_prefix (keys_of p) (keys_of q).
Proof.
  revert q; induction p as [|x p IH]; intros [|y q]; simpl; try tauto. rewrite IH.
  split; intros [H1 H2]; split; congruence.
Qed.
Lemma keys_of_inj p q : keys_of p = keys_of q -> p = q.
Proof.
  revert q; induction p as [|x p IH]; intros [|y q] H; simpl in H; try congruence.
  inversion H. f_equal; auto.
Qed.
Lemma str_path_keys_of p : str_path (keys_of p).
Proof. apply Forall_map, Forall_forall. eauto. Qed.
Lemma str_path_ex q : str_path q -> exists p, q = keys_of p.
Proof.
  induction 1 as [|k q [s ->] H [p ->]]; [exists []; reflexivity | exists (s :: p); reflexivity].
Qed.

Lemma distinct_wfb v : distinct_keys v <-> wfb v = true.
Proof.
  induction v using pyval_ind'; try (simpl; tauto).
  - rewrite wfb_list. cbn [distinct_keys]. induction H as [|x l Hx H IH]; [split; constructor|].
    rewrite Hx, IH. split; [intros [? ?]; constructor; auto | intros HF; inversion HF; auto].
  - rewrite wfb_dict. cbn [distinct_keys]. apply and_iff_compat_l.
    induction H as [|[k x] d Hx H IH]; simpl; [tauto|]. simpl in Hx. rewrite Hx, IH. split.
    + intros [H1 H2] k' v' [E|E]; [inversion E; subst; auto|eauto].
    + intros Hall. split; [eapply Hall; left; reflexivity|]. intros; eapply Hall; right; eassumption.
Qed.

Lemma all_keys_in P d k x : all_keys P (VDict d) -> In (k, x) d -> P k /\ all_keys P x.
Proof.
  cbn [all_keys]. induction d as [|[k' x'] d IH]; simpl; [tauto|].
  intros [H1 [H2 H3]] [E|E]; [inversion E; subst; auto|auto].
Qed.

Lemma is_param_iff node : is_param node <-> schema_leaf node = true.
Proof.
  unfold is_param, schema_leaf. destruct node; try tauto. rewrite dmem_In, in_map_iff. split.
  - intros [t Ht]. exists (KStr "type", t). auto.
  - intros [[k t] [Hk Hin]]. simpl in Hk. subst. eauto.
Qed.

Lemma param_at_leaves t p node : param_at t p node -> forall pre,
  In (pre ++ keys_of p, node) (leaves schema_leaf pre t).
Proof.
  induction 1 as [d k node Hin Hp|d k sec p node Hin Hp Ha IH]; intros pre; rewrite leaves_dict; apply in_flat_map.
  - exists (KStr k, node). split; [assumption|]. cbn [fst snd]. apply is_param_iff in Hp. rewrite Hp. left; reflexivity.
  - exists (KStr k, sec). split; [assumption|]. cbn [fst snd].
    assert (schema_leaf sec = false) as -> by (apply not_true_iff_false; rewrite <- is_param_iff; assumption).
    specialize (IH (pre ++ [KStr k])). rewrite <- app_assoc in IH. exact IH.
Qed.
Lemma leaves_param_at t : all_keys string_key t -> forall pre q node,
  In (q, node) (leaves schema_leaf pre t) -> exists p, q = pre ++ keys_of p /\ param_at t p node.
Proof.
  induction t using pyval_ind'; intros Hk pre q node Hin; try (simpl in Hin; tauto).
  rewrite leaves_dict in Hin. apply in_flat_map in Hin. destruct Hin as [[k x] [Hd Hin]]. cbn [fst snd] in Hin.
  destruct (all_keys_in _ _ _ _ Hk Hd) as [Hs Hx]. destruct k as [s|z]; [|destruct Hs].
  rewrite Forall_forall in H. specialize (H _ Hd). simpl in H.
  destruct (schema_leaf x) eqn:E.
  - destruct Hin as [Hin|[]]. inversion Hin; subst. exists [s]. split; [reflexivity|].
    apply param_here; [assumption|]. apply is_param_iff, E.
  - destruct (H Hx _ _ _ Hin) as [p [-> Hp]]. exists (s :: p). rewrite <- app_assoc. split; [reflexivity|].
    eapply param_below; eauto. rewrite is_param_iff. congruence.
Qed.

Lemma all_keys_plain_string v : all_keys plain_key v -> all_keys string_key v.
Proof.
  induction v using pyval_ind'; cbn [all_keys]; intros Hv; try exact I.
  induction H as [|[k x] d Hx H IH]; [exact I|]. destruct Hv as [H1 [H2 H3]].
  split; [|split; [exact (Hx H2)|exact (IH H3)]].
  destruct k; [exact I|destruct H1].
Qed.
Lemma param_at_plain t p node : all_keys plain_key t -> param_at t p node -> Forall plain p.
Proof.
  intros Hk H. revert Hk. induction H as [d k node Hin Hp|d k sec p node Hin Hp Ha IH]; intros Hk;
    destruct (all_keys_in _ _ _ _ Hk Hin) as [H1 H2]; constructor; auto.
Qed.

(** the declaration read by create_parser *)
Lemma create_parser_fields node p : create_parser node = Ok p ->
  p_default p = default_of node /\ (p_cbf p = true <-> may_be_false node) /\
  (p_type p = TFloat \/ p_type p = TInt ->
     p_min p = match entry node "min" with Some v => v | None => VFloat FNegInf end /\
     p_max p = match entry node "max" with Some v => v | None => VFloat FInf end) /\
  (p_type p = TEnum -> entry node "values" = Some (VList (p_allowed p))).
Proof.
  intros H. destruct node as [| | | | | |d]; try (simpl in H; congruence).
  unfold default_of, may_be_false, entry. cbn [create_parser] in H.
  destruct (dget d (KStr "type")) as [[| | | |tn| |]|]; try congruence.
  destruct (type_lookup parser_types tn) as [ty|]; [|congruence].
  assert (Hc : py_truth (dget_or d "can_be_false" (VBool false)) = true <->
               exists v, dget d (KStr "can_be_false") = Some v /\ py_truth v = true).
  { unfold dget_or. destruct (dget d (KStr "can_be_false")) as [v|]; split.
    - eauto.
    - intros [v' [E Ht]]. congruence.
    - discriminate.
    - intros [v' [E Ht]]. congruence. }
  destruct ty;
    repeat match type of H with
           | bind ?m _ = Ok _ => destruct m; cbn [bind] in H; [|congruence]
           | match dget d (KStr "values") with _ => _ end = Ok _ => destruct (dget d (KStr "values")) as [[]|] eqn:?; try congruence
           | match ?m with _ => _ end = Ok _ => destruct m eqn:?; try congruence
           end; inversion H; subst; cbn [p_default p_cbf p_type p_min p_max p_allowed]; split; try reflexivity;
      (split; [exact Hc|]); split; try (intros [E|E]; discriminate E); try (intros E; discriminate E);
      try (intros _; split; reflexivity); auto.
Qed.

Lemma has_type_lookup node p t : create_parser node = Ok p -> has_type node t ->
  type_lookup parser_types t = Some (p_type p).
Proof.
  intros H Ht. destruct (create_parser_type _ _ H) as [d [tn [-> [Hd Hl]]]].
  unfold has_type, entry in Ht. congruence.
Qed.

(** ** Flatten with values *)
Lemma flatten_vals crit v : forall curr flat fl, flatten_aux crit curr flat v = Ok fl ->
  forall k n, dget fl k = Some n -> dget flat k = Some n \/
    exists q s, flat_at crit curr v q n /\ join_keys q = Ok s /\ k = KStr s.
Proof.
  induction v using pyval_ind'; intros curr flat fl Hf; try (simpl in Hf; congruence).
  rewrite flatten_aux_dict in Hf.
  assert (G : forall l flat fl, incl l d -> flat_go crit curr l flat = Ok fl -> forall k n,
    dget fl k = Some n -> dget flat k = Some n \/
      exists q s, flat_at crit curr (VDict l) q n /\ join_keys q = Ok s /\ k = KStr s).
  { clear Hf flat fl. induction l as [|[k0 n0] l IHl]; intros flat fl Hincl Hf k n Hk; cbn [flat_go] in Hf.
    - inversion Hf; subst. auto.
    - fold (flat_go crit curr) in Hf.
      destruct (crit (curr ++ [k0]) n0) as [leaf|] eqn:Ec; cbn [bind] in Hf; [|congruence].
      assert (Hincl' : incl l d) by (intros x Hx; apply Hincl; right; assumption).
      assert (Hn0 : In (k0, n0) d) by (apply Hincl; left; reflexivity).
      rewrite Forall_forall in H. specialize (H _ Hn0). simpl in H.
      assert (Hext : forall q m, flat_at crit curr (VDict l) q m -> flat_at crit curr (VDict ((k0, n0) :: l)) q m).
      { intros q m Hfa. inversion Hfa; subst; [eapply fa_leaf | eapply fa_node]; simpl; eauto. }
      destruct leaf.
      + destruct (join_keys (curr ++ [k0])) as [s0|] eqn:Ej; cbn [bind] in Hf; [|congruence].
        destruct (IHl _ _ Hincl' Hf _ _ Hk) as [Hd|[q [s [H1 [H2 H3]]]]].
        * destruct (key_dec (KStr s0) k) as [<-|Hne].
          -- rewrite dget_dset_same in Hd. inversion Hd; subst. right. exists (curr ++ [k0]), s0.
             split; [apply fa_leaf; simpl; auto|auto].
          -- rewrite dget_dset_other in Hd by assumption. auto.
        * right. exists q, s. auto.
      + destruct (flatten_aux crit (curr ++ [k0]) flat n0) as [flat'|] eqn:Ef; cbn [bind] in Hf; [|congruence].
        destruct (IHl _ _ Hincl' Hf _ _ Hk) as [Hd|[q [s [H1 [H2 H3]]]]].
        * destruct (H _ _ _ Ef _ _ Hd) as [Hd'|[q [s [H1 [H2 H3]]]]]; [auto|].
          right. exists q, s. split; [eapply fa_node; simpl; eauto|auto].
        * right. exists q, s. auto. }
  apply (G d flat fl (incl_refl _) Hf).
Qed.

Lemma flat_at_default v curr q n : flat_at default_leaf_criterium curr v q n -> wfb v = true ->
  exists r, q = curr ++ r /\ r <> [] /\ get_nested v r = Ok n /\ is_dict n = false.
Proof.
  induction 1 as [curr d k n Hin Hc|curr d k n q m Hin Hc Hfa IH]; intros Hwf; apply wfb_dict in Hwf; destruct Hwf as [Hnd Hwf].
  - exists [k]. repeat split; [discriminate| |].
    + simpl. rewrite (In_dget _ _ _ Hnd Hin). reflexivity.
    + unfold default_leaf_criterium in Hc. destruct (is_dict n); [discriminate|reflexivity].
  - destruct (IH (Hwf _ _ Hin)) as [r [-> [Hr [Hg Hd]]]]. exists (k :: r). rewrite <- app_assoc.
    repeat split; auto; [discriminate|].
    change (get_nested (VDict d) (k :: r)) with (do v' <- subscript (VDict d) k; get_nested v' r).
    cbn [subscript]. rewrite (In_dget _ _ _ Hnd Hin). exact Hg.
Qed.
Lemma default_flat_at v : forall curr r n, r <> [] -> str_path r -> get_nested v r = Ok n -> is_dict n = false ->
  flat_at default_leaf_criterium curr v (curr ++ r) n.
Proof.
  intros curr r. revert v curr. induction r as [|k r IH]; intros v curr n Hne Hs Hg Hn; [tauto|].
  inversion Hs as [|? ? [s ->] Hs']; subst.
  destruct v as [| | | | | |d]; try (simpl in Hg; congruence).
  cbn [get_nested subscript] in Hg. destruct (dget d (KStr s)) as [x|] eqn:E; cbn [bind] in Hg; [|congruence].
  apply dget_In in E. destruct r as [|k2 r].
  - simpl in Hg. inversion Hg; subst. apply fa_leaf; [assumption|]. unfold default_leaf_criterium. rewrite Hn. reflexivity.
  - assert (is_dict x = true).
    { inversion Hs' as [|? ? [s2 ->] _]; subst. destruct x; simpl in Hg; try congruence. reflexivity. }
    eapply fa_node; [exact E|unfold default_leaf_criterium; rewrite H; reflexivity|].
    replace (curr ++ KStr s :: k2 :: r) with ((curr ++ [KStr s]) ++ k2 :: r) by (rewrite <- app_assoc; reflexivity).
    apply IH; auto. discriminate.
Qed.
(** flatten with the default criterion never fails on a dictionary with string keys *)
Lemma flatten_default_ok v : is_dict v = true -> all_keys string_key v -> forall curr flat, str_path curr ->
  exists fl, flatten_aux default_leaf_criterium curr flat v = Ok fl.
Proof.
  induction v using pyval_ind'; intros Hd Hk curr flat Hc; try discriminate Hd.
  rewrite flatten_aux_dict. revert flat.
  induction d as [|[k n] d IHd]; intros flat; cbn [flat_go]; [eauto|].
  fold (flat_go default_leaf_criterium curr).
  inversion H as [|? ? Hn Hd']; subst. simpl in Hn.
  cbn [all_keys] in Hk. destruct Hk as [Hk1 [Hk2 Hk3]]. destruct k as [s|]; [|destruct Hk1].
  assert (Hc' : str_path (curr ++ [KStr s])) by (apply Forall_app; split; [assumption|constructor; eauto]).
  unfold default_leaf_criterium at 1. cbn [bind]. destruct (is_dict n) eqn:E; cbn [negb].
  - destruct (Hn eq_refl Hk2 _ flat Hc') as [fl1 ->]. cbn [bind]. apply IHd; auto.
  - destruct (str_path_ex _ Hc') as [l Hl]. rewrite Hl. unfold keys_of. rewrite join_keys_map. cbn [bind].
    apply IHd; auto.
Qed.

Lemma plain_free p : Forall plain p -> Forall free (keys_of p).
Proof. intros H. apply Forall_map. exact H. Qed.

Lemma flatten_spec v fl : distinct_keys v -> all_keys plain_key v -> flatten default_leaf_criterium v = Ok fl ->
  forall p n, p <> [] -> Forall plain p ->
    (dget fl (KStr (str_join " - " p)) = Some n <-> (lookup v p = Some n /\ is_dict n = false)).
Proof.
  intros Hwf Hpl Hf p n Hne Hp. apply distinct_wfb in Hwf. unfold flatten in Hf.
  assert (Huniq : forall q s m, flat_at default_leaf_criterium [] v q m -> join_keys q = Ok s ->
            Forall free q).
  { intros q s m Hfa _. clear -Hfa Hpl.
    assert (G : forall c w q m, flat_at default_leaf_criterium c w q m -> all_keys plain_key w -> Forall free c -> Forall free q).
    { induction 1 as [c d k n Hin Hc|c d k n q0 m0 Hin Hc Hfa0 IH]; intros Hk Hfc;
        destruct (all_keys_in _ _ _ _ Hk Hin) as [H1 H2].
      - apply Forall_app. split; [assumption|]. constructor; [exact H1|constructor].
      - apply IH; [assumption|]. apply Forall_app. split; [assumption|]. constructor; [exact H1|constructor]. }
    eapply G; eauto. }
  assert (Hjoin : join_keys (keys_of p) = Ok (str_join " - " p)) by apply join_keys_map.
  assert (Hfwd : forall m, dget fl (KStr (str_join " - " p)) = Some m -> get_nested v (keys_of p) = Ok m /\ is_dict m = false).
  { intros m Hd. destruct (flatten_vals _ _ _ _ _ Hf _ _ Hd) as [Hd'|[q [s [H1 [H2 H3]]]]]; [discriminate|].
    inversion H3; subst s. pose proof (Huniq _ _ _ H1 H2) as Hfq.
    destruct (flat_at_default _ _ _ _ H1 Hwf) as [r [-> [Hr [Hg Hm]]]]. simpl app in *.
    assert (r = keys_of p) as ->; [|auto].
    eapply join_keys_inj; eauto using plain_free. destruct p; [congruence|discriminate]. }
  split.
  - intros Hd. destruct (Hfwd _ Hd). split; [apply lookup_get|]; assumption.
  - intros [Hl Hn]. apply lookup_get in Hl.
    assert (Hm : dmem fl (KStr (str_join " - " p)) = true).
    { apply (flatten_keys _ _ _ _ _ Hf). right. exists (keys_of p), n, (str_join " - " p).
      repeat split; auto. change (keys_of p) with ([] ++ keys_of p).
      apply default_flat_at; auto using str_path_keys_of. destruct p; [congruence|discriminate]. }
    unfold dmem in Hm. destruct (dget fl (KStr (str_join " - " p))) as [m|] eqn:E; [|discriminate].
    destruct (Hfwd m eq_refl) as [Hg _]. congruence.
Qed.
