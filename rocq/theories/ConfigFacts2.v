(** Rejection of unknown keys, idempotence of validation, references (models: Parsers.v, Config.v). *)
From Coq Require Import Lia.
From Verif Require Import PyBase NestedDict NestedDictFacts Parsers Config ConfigFacts.

Section parser_ind'.
  Variable P : parser -> Prop.
  Hypothesis H : forall ty d c mn mx al u vp kp,
    match vp with Some q => P q | None => True end ->
    match kp with Some q => P q | None => True end ->
    P (Parser ty d c mn mx al u vp kp).
  Fixpoint parser_ind' (p : parser) : P p :=
    match p with
    | Parser ty d c mn mx al u vp kp =>
        H ty d c mn mx al u vp kp
          (match vp with Some q => parser_ind' q | None => I end)
          (match kp with Some q => parser_ind' q | None => I end)
    end.
End parser_ind'.

(** ** Parsing keeps dictionaries well-formed *)
Lemma map_result_Forall2 {A B} (f : A -> result B) l l' :
  map_result f l = Ok l' -> Forall2 (fun x y => f x = Ok y) l l'.
Proof.
  revert l'; induction l as [|x l IH]; intros l' H; simpl in H; [inversion H; constructor|].
  destruct (f x) as [y|] eqn:E; cbn [bind] in H; [|congruence].
  destruct (map_result f l) as [ys|] eqn:E2; cbn [bind] in H; [|congruence].
  inversion H; subst. constructor; auto.
Qed.
Lemma wfb_list l : wfb (VList l) = true <-> Forall (fun v => wfb v = true) l.
Proof.
  cbn [wfb]. induction l as [|x l IH]; [split; auto|]. rewrite andb_true_iff, IH.
  split; [intros [? ?]; constructor; auto | intros HF; inversion HF; auto].
Qed.
Lemma In_dset {A} (d : list (key * A)) k v k' v' : In (k', v') (dset d k v) -> (k' = k /\ v' = v) \/ In (k', v') d.
Proof.
  induction d as [|[a b] d IH]; simpl; [intros [H|[]]; inversion H; auto|].
  destruct (key_eqb a k) eqn:E; simpl.
  - apply key_eqb_eq in E. subst. intros [H|H]; [inversion H; auto | auto].
  - intros [H|H]; [auto|]. destruct (IH H); auto.
Qed.
Lemma wfb_dset d k v : wfb (VDict d) = true -> wfb v = true -> wfb (VDict (dset d k v)) = true.
Proof.
  rewrite !wfb_dict. intros [Hn Hd] Hv. split; [apply dset_keys_NoDup; assumption|].
  intros k' v' Hin. apply In_dset in Hin. destruct Hin as [[-> ->]|Hin]; eauto.
Qed.
Lemma set_nested_wf v ks x v' : wfb v = true -> wfb x = true -> set_nested v ks x = Ok v' -> wfb v' = true.
Proof.
  revert v v'; induction ks as [|k r IH]; intros v v' Hv Hx H; simpl in H; [congruence|].
  destruct v as [| | | | | |d]; try congruence. destruct r as [|k2 r].
  - inversion H; subst. apply wfb_dset; assumption.
  - destruct (set_nested _ (k2 :: r) x) as [sub'|] eqn:E; cbn [bind] in H; [|congruence].
    inversion H; subst. apply wfb_dset; [assumption|]. eapply IH; [|exact Hx|exact E].
    destruct (dget d k) as [s|] eqn:Ed; [|reflexivity].
    apply wfb_dict in Hv. eapply (proj2 Hv), dget_In, Ed.
Qed.

(** the dictionary-comprehension step of DictParser *)
Definition parse_entry (pk : key -> result pyval) (pv : pyval -> result pyval) (acc : pydict) (kv : key * pyval)
  : result pydict :=
  do k' <- pk (fst kv);
  do kk <- key_of_val k';
  do v' <- pv (snd kv);
  Ok (dset acc kk v').

Lemma parse_entries_wf pk pv (d : pydict) :
  (forall k v v', In (k, v) d -> pv v = Ok v' -> wfb v = true -> wfb v' = true) ->
  (forall k v, In (k, v) d -> wfb v = true) ->
  forall acc acc', wfb (VDict acc) = true -> fold_result (parse_entry pk pv) d acc = Ok acc' ->
  wfb (VDict acc') = true.
Proof.
  induction d as [|[k v] d IH]; intros Hp Hd acc acc' Ha H; cbn [fold_result] in H; [inversion H; subst; auto|].
  unfold parse_entry in H at 1. cbn [fst snd] in H.
  destruct (pk k) as [k'|]; cbn [bind] in H; [|congruence].
  destruct (key_of_val k') as [kk|]; cbn [bind] in H; [|congruence].
  destruct (pv v) as [v'|] eqn:Ev; cbn [bind] in H; [|congruence].
  eapply IH; [| |  |exact H].
  - intros; eapply Hp; eauto; right; eassumption.
  - intros; eapply Hd; right; eassumption.
  - apply wfb_dset; [assumption|]. eapply Hp; [left; reflexivity|eassumption|eapply Hd; left; reflexivity].
Qed.

Lemma check_bounds_id p v w : check_bounds p v = Ok w -> w = v.
Proof.
  unfold check_bounds. destruct (py_ltb v (p_min p)) as [[|]|]; cbn [bind]; try congruence.
  destruct (py_ltb (p_max p) v) as [[|]|]; cbn [bind]; congruence.
Qed.

Lemma parse_wf o p : forall v w, parse o p v = Ok w -> wfb v = true -> wfb w = true.
Proof.
  induction p as [ty d c mn mx al u vp kp IHv IHk] using parser_ind'. intros v w H Hv.
  cbn [parse] in H. destruct (c && is_falsy v); [inversion H; reflexivity|].
  assert (Hitem : forall x x', match vp with Some q => parse o q x | None => Ok x end = Ok x' ->
                          wfb x = true -> wfb x' = true).
  { intros x x' Hx. destruct vp as [q|]; [apply IHv; assumption | inversion Hx; auto]. }
  destruct ty.
  - destruct (py_float v); cbn [bind] in H; [|congruence]. apply check_bounds_id in H. subst; reflexivity.
  - destruct (py_int v); cbn [bind] in H; [|congruence]. apply check_bounds_id in H. subst; reflexivity.
  - destruct (is_truthy v); [inversion H; reflexivity|]. destruct (is_falsy v); inversion H; reflexivity.
  - inversion H; reflexivity.
  - destruct (py_in v al); inversion H; subst; assumption.
  - destruct (quant o v u false) as [|e]; [inversion H; subst; assumption|]. destruct e; congruence.
  - destruct v; try congruence; [inversion H; reflexivity|].
    match type of H with bind ?m _ = _ => destruct m as [l'|] eqn:E end; cbn [bind] in H; [|congruence].
    inversion H; subst. apply map_result_Forall2 in E. apply wfb_list in Hv. apply wfb_list.
    clear H. induction E; constructor; inversion Hv; subst; eauto.
  - destruct v; try congruence; [inversion H; reflexivity|].
    match type of H with bind ?m _ = _ => destruct m as [l'|] eqn:E end; cbn [bind] in H; [|congruence].
    inversion H; subst. apply wfb_dict in Hv.
    apply (parse_entries_wf
             (fun k => match kp with Some q => parse o q (val_of_key k) | None => Ok (val_of_key k) end)
             (fun x => match vp with Some q => parse o q x | None => Ok x end) d0) with (acc := []);
      [intros; eapply Hitem; eauto | apply Hv | reflexivity | exact E].
  - destruct v; try congruence.
    match type of H with bind ?m _ = _ => destruct m as [l'|] eqn:E end; cbn [bind] in H; [|congruence].
    match type of H with (if ?b then _ else _) = _ => destruct b end; [|congruence].
    inversion H; subst. apply wfb_dict in Hv.
    apply (parse_entries_wf
             (fun k => match kp with Some q => parse o q (val_of_key k) | None => Ok (val_of_key k) end)
             (fun x => match vp with Some q => parse o q x | None => Ok x end) d0) with (acc := []);
      [intros; eapply Hitem; eauto | apply Hv | reflexivity | exact E].
  - inversion H; reflexivity.
  - destruct v; inversion H; subst; try reflexivity. assumption.
Qed.

Lemma dget_or_wf d k x : wfb (VDict d) = true -> wfb x = true -> wfb (dget_or d k x) = true.
Proof.
  intros Hd Hx. unfold dget_or. destruct (dget d (KStr k)) eqn:E; [|assumption].
  apply wfb_dict in Hd. eapply (proj2 Hd), dget_In, E.
Qed.
Lemma create_parser_default_wf n p : wfb n = true -> create_parser n = Ok p -> wfb (p_default p) = true.
Proof.
  intros Hn H. destruct n as [| | | | | |d]; try (simpl in H; congruence).
  cbn [create_parser] in H.
  destruct (dget d (KStr "type")) as [[| | | |tn| |]|]; try congruence.
  destruct (type_lookup parser_types tn) as [ty|]; [|congruence].
  assert (Hd : wfb (dget_or d "default" VNone) = true) by (apply dget_or_wf; auto).
  destruct ty;
    repeat match type of H with
           | bind ?m _ = Ok _ => destruct m; cbn [bind] in H; [|congruence]
           | match ?m with _ => _ end = Ok _ => destruct m; try congruence
           end; inversion H; subst; assumption.
Qed.

Lemma create_parser_type n p : create_parser n = Ok p ->
  exists d tn, n = VDict d /\ dget d (KStr "type") = Some (VStr tn) /\ type_lookup parser_types tn = Some (p_type p).
Proof.
  intros H. destruct n as [| | | | | |d]; try (simpl in H; congruence).
  cbn [create_parser] in H.
  destruct (dget d (KStr "type")) as [[| | | |tn| |]|] eqn:Et; try congruence.
  destruct (type_lookup parser_types tn) as [ty|] eqn:El; [|congruence].
  exists d, tn. split; [reflexivity|]. split; [assumption|]. rewrite El. f_equal.
  destruct ty;
    repeat match type of H with
           | bind ?m _ = Ok _ => destruct m; cbn [bind] in H; [|congruence]
           | match ?m with _ => _ end = Ok _ => destruct m; try congruence
           end; inversion H; subst; reflexivity.
Qed.

Section facts.
  Variable o : oracles.

  Lemma parse_params_wf template user st :
    wfb template = true -> wfb user = true -> (forall q n, In (q, n) (leaves schema_leaf [] template) -> str_path q) ->
    parse_params o template user = Ok st -> wfb (fst st) = true.
  Proof.
    intros Ht Hu Hs H. unfold parse_params in H. destruct template as [| | | | | |d]; try congruence.
    assert (Hwfl : forall q n, In (q, n) (leaves schema_leaf [] (VDict d)) -> wfb n = true).
    { intros q n Hin. pose proof (leaves_get schema_leaf (VDict d) Ht [] q n Hin) as Hg.
      eapply wfb_get; [exact Ht | eapply Hs; exact Hin | exact Hg]. }
    set (L := leaves schema_leaf [] (VDict d)) in *.
    assert (G : forall l st0 st1, incl l L -> wfb (fst st0) = true ->
              fold_result (parse_leaf o user) l st0 = Ok st1 -> wfb (fst st1) = true).
    { induction l as [|[q n] l IH]; intros st0 st1 Hl H0 Hf; cbn [fold_result] in Hf; [inversion Hf; subst; assumption|].
      destruct (parse_leaf o user st0 (q, n)) as [st2|] eqn:E; cbn [bind] in Hf; [|congruence].
      eapply IH; [|  |exact Hf]; [intros x Hx; apply Hl; right; assumption|].
      assert (Hin : In (q, n) L) by (apply Hl; left; reflexivity).
      unfold parse_leaf in E. destruct st0 as [parsed tree].
      destruct (create_parser n) as [p|] eqn:Ep; cbn [bind] in E; [|congruence].
      destruct (ptree_set tree q p) as [tree'|] eqn:Et; cbn [bind] in E; [|congruence].
      destruct (parser_get o p user q) as [v|] eqn:Ev; cbn [bind] in E; [|congruence].
      destruct (set_nested parsed q v) as [parsed'|] eqn:Es; cbn [bind] in E; [|congruence].
      inversion E; subst. simpl. eapply set_nested_wf; [exact H0| |exact Es].
      unfold parser_get in Ev. destruct (get_nested user q) as [x|e] eqn:Eg.
      - eapply parse_wf; [exact Ev|]. eapply wfb_get; [exact Hu|eapply Hs; exact Hin|exact Eg].
      - destruct e; try congruence. eapply parse_wf; [exact Ev|].
        eapply create_parser_default_wf; [|exact Ep]. eapply Hwfl; exact Hin. }
    eapply (G L); [apply incl_refl| |exact H]. reflexivity.
  Qed.

  (** ** Unknown keys *)
  Section obsolete.
    Variable crit : list key -> pyval -> result bool.

    Lemma flat_walk : forall r v curr flat fl n,
      flatten_aux crit curr flat v = Ok fl -> r <> [] -> str_path r ->
      (forall keys x, is_dict x = false -> crit keys x = Ok false -> False) ->
      get_nested v r = Ok n -> is_dict n = false ->
      exists r1 n1, r1 <> [] /\ is_prefix r1 r /\ flat_at crit curr v (curr ++ r1) n1 /\
        crit (curr ++ r1) n1 = Ok true /\ get_nested v r1 = Ok n1 /\ exists s, join_keys (curr ++ r1) = Ok s.
    Proof.
      induction r as [|k r IH]; intros v curr flat fl n Hf Hne Hs Hcrit Hg Hn; [tauto|].
      destruct (flatten_crit_ok _ _ _ _ _ Hf) as [d [-> Hd]].
      inversion Hs as [|? ? [nm ->] Hs']; subst.
      cbn [get_nested subscript] in Hg. destruct (dget d (KStr nm)) as [x|] eqn:Ed; cbn [bind] in Hg; [|congruence].
      pose proof (dget_In _ _ _ Ed) as Hin. destruct (Hd _ _ Hin) as [[Hc [s Hj]]|[Hc [flat1 [fl1 Hf1]]]].
      - exists [KStr nm], x. repeat split; auto; try discriminate.
        + apply fa_leaf; assumption.
        + simpl. rewrite Ed. reflexivity.
        + eauto.
      - destruct r as [|k2 r].
        + simpl in Hg. inversion Hg; subst. exfalso. eapply Hcrit; eauto.
        + destruct (IH x (curr ++ [KStr nm]) flat1 fl1 n Hf1) as [r1 [n1 [H1 [H2 [H3 [H4 [H5 H6]]]]]]]; auto; [discriminate|].
          exists (KStr nm :: r1), n1. rewrite <- app_assoc in H3, H4, H6. simpl in H3, H4, H6.
          split; [discriminate|]. split; [simpl; auto|]. split; [eapply fa_node; eauto|]. split; [assumption|].
          split; [|assumption].
          change (get_nested (VDict d) (KStr nm :: r1)) with (do v' <- subscript (VDict d) (KStr nm); get_nested v' r1).
          cbn [subscript]. rewrite Ed. exact H5.
    Qed.

    Lemma flat_at_get v curr w q n : wfb v = true -> str_path curr -> get_nested v curr = Ok w ->
      flat_at crit curr w q n -> str_path q -> get_nested v q = Ok n /\ crit q n = Ok true.
    Proof.
      intros Hv Hc Hg Hfa. revert Hc Hg. induction Hfa as [curr d k m Hin Hcr|curr d k m q n Hin Hcr Hfa IH];
        intros Hc Hg Hq.
      - split; [|assumption]. rewrite get_nested_app, Hg. simpl.
        pose proof (wfb_get _ _ _ Hv Hc Hg) as Hwd. apply wfb_dict in Hwd.
        rewrite (In_dget _ _ _ (proj1 Hwd) Hin). reflexivity.
      - apply IH; auto.
        + assert (Hpre : is_prefix (curr ++ [k]) q).
          { clear -Hfa. assert (G : forall c w q n, flat_at crit c w q n -> is_prefix c q).
            { induction 1 as [c d0 k0 m0 Hin0 Hcr0|c d0 k0 m0 q0 n0 Hin0 Hcr0 Hfa0 IH0].
              - apply is_prefix_app.
              - apply is_prefix_ex in IH0. destruct IH0 as [r ->]. rewrite <- app_assoc. apply is_prefix_app. }
            eapply G; eassumption. }
          apply is_prefix_ex in Hpre. destruct Hpre as [r ->]. unfold str_path in *.
          rewrite Forall_app in Hq. tauto.
        + rewrite get_nested_app, Hg. simpl.
          pose proof (wfb_get _ _ _ Hv Hc Hg) as Hwd. apply wfb_dict in Hwd.
          rewrite (In_dget _ _ _ (proj1 Hwd) Hin). reflexivity.
    Qed.
  End obsolete.

  Lemma obsolete_leaf_nondict tree keys x :
    is_dict x = false -> obsolete_leaf tree keys x = Ok false -> False.
  Proof.
    intros Hx. unfold obsolete_leaf. destruct (ptree_get tree keys) as [[p|d]|[]]; try destruct (p_type p);
      rewrite ?Hx; simpl; congruence.
  Qed.

  Lemma ptree_get_beyond t q k r p : ptree_get t q = Ok (PLeaf p) -> ptree_get t (q ++ k :: r) = Err TypeError.
  Proof.
    revert t; induction q as [|x q IH]; intros t H; simpl in *; [inversion H; reflexivity|].
    destruct t as [p'|d]; [congruence|]. destruct (dget d x); [auto|congruence].
  Qed.

  Lemma comparable_or (L : list (list key * pyval)) p :
    (forall q n, In (q, n) L -> incomparable p q) \/
    (exists q n, In (q, n) L /\ (is_prefix p q \/ is_prefix q p)).
  Proof.
    induction L as [|[q n] L IH]; [left; intros ? ? []|].
    destruct (is_prefix_dec p q); [right; exists q, n; simpl; auto|].
    destruct (is_prefix_dec q p); [right; exists q, n; simpl; auto|].
    destruct IH as [IH|[q' [n' [Hin Hc]]]].
    - left. intros q' n' [Hin|Hin]; [inversion Hin; subst; split; assumption | eauto].
    - right. exists q', n'. simpl; auto.
  Qed.

  Definition dict_typed (node : pyval) : Prop :=
    exists d, node = VDict d /\ (dget d (KStr "type") = Some (VStr "dict") \/ dget d (KStr "type") = Some (VStr "datasource")).

  Lemma dict_typed_parser n p : create_parser n = Ok p -> p_type p = TDict \/ p_type p = TDatasource -> dict_typed n.
  Proof.
    intros H Hp. destruct (create_parser_type _ _ H) as [d [tn [-> [Hd Hl]]]]. exists d. split; [reflexivity|].
    rewrite Hd. unfold parser_types in Hl. cbn [type_lookup] in Hl.
    repeat match type of Hl with
           | (if String.eqb ?a tn then _ else _) = _ =>
               let E := fresh "E" in
               destruct (String.eqb a tn) eqn:E;
               [apply String.eqb_eq in E; subst tn; inversion Hl as [Hl']; rewrite <- Hl' in Hp;
                destruct Hp; try congruence; auto | clear E]
           end; congruence.
  Qed.

  Lemma known_keys template user st p node :
    wfb template = true -> wfb user = true ->
    (forall q n, In (q, n) (leaves schema_leaf [] template) -> Forall free q) ->
    check_params o template user = Ok st ->
    get_nested user p = Ok node -> is_dict node = false -> Forall free p ->
    exists q n, In (q, n) (leaves schema_leaf [] template) /\
      (p = q \/ (is_prefix q p /\ dict_typed n)).
  Proof.
    intros Ht Hu Hfree H Hg Hn Hfp.
    assert (Hsf : forall q, Forall free q -> str_path q).
    { intros q Hq. eapply Forall_impl; [|exact Hq]. intros [s|z] Hk; [eauto|destruct Hk]. }
    unfold check_params in H.
    destruct (parse_params o template user) as [st0|] eqn:Ep; cbn [bind] in H; [|congruence].
    destruct (check_obsolete_params user (fst st0) (snd st0)) as [u|] eqn:Ec; cbn [bind] in H; [|congruence].
    inversion H; subst st0; clear H.
    pose proof (parse_params_inv o template user st Ht Ep) as [I1 [I2 I3]].
    assert (Hpw : wfb (fst st) = true) by (apply (parse_params_wf template user st Ht Hu); [intros q n Hq; eapply Hsf, Hfree, Hq | exact Ep]).
    unfold check_obsolete_params in Ec.
    destruct (flatten (obsolete_leaf (snd st)) user) as [ku|] eqn:Eu; cbn [bind] in Ec; [|congruence].
    destruct (flatten (obsolete_leaf (snd st)) (fst st)) as [kp|] eqn:Ek; cbn [bind] in Ec; [|congruence].
    match type of Ec with (if ?b then _ else _) = _ => destruct b eqn:Ef end; [clear Ec|congruence].
    assert (Hpne : p <> []).
    { intros ->. simpl in Hg. inversion Hg; subst. destruct node; unfold flatten in Eu; simpl in Eu, Hn; congruence. }
    unfold flatten in Eu, Ek.
    destruct (flat_walk _ p user [] [] ku node Eu Hpne (Hsf _ Hfp) (obsolete_leaf_nondict _) Hg Hn)
      as [r1 [n1 [Hr1 [Hpre [Hfa [Hcr [Hg1 [s Hj]]]]]]]].
    simpl app in Hfa, Hcr, Hj.
    assert (Hku : dmem ku (KStr s) = true).
    { apply (flatten_keys _ _ _ _ _ Eu). right. exists r1, n1, s. auto. }
    assert (Hkp : dmem kp (KStr s) = true).
    { rewrite forallb_forall in Ef. apply dmem_In in Hku. apply in_map_iff in Hku.
      destruct Hku as [[k' v'] [Hk' Hin]]. simpl in Hk'. subst k'. apply (Ef _ Hin). }
    apply (flatten_keys _ _ _ _ _ Ek) in Hkp. destruct Hkp as [Hkp|[q [n [s' [Hqa [Hqj Hs']]]]]]; [discriminate|].
    inversion Hs'; subst s'.
    assert (Hqs : str_path q).
    { apply join_keys_ok in Hqj. destruct Hqj as [l [-> _]]. apply Forall_map, Forall_forall. eauto. }
    assert (Hqne : q <> []).
    { assert (G : forall c w q n, flat_at (obsolete_leaf (snd st)) c w q n -> q <> []).
      { induction 1; [destruct curr; discriminate|assumption]. }
      eapply G; exact Hqa. }
    destruct (flat_at_get (obsolete_leaf (snd st)) (fst st) [] (fst st) q n Hpw (Forall_nil _) eq_refl Hqa Hqs)
      as [Hgq Hcq].
    (* q is a template leaf *)
    assert (Hleaf : exists n0, In (q, n0) (leaves schema_leaf [] template)).
    { destruct (comparable_or (leaves schema_leaf [] template) q) as [Hall|[ql [nl [Hin Hcmp]]]].
      - destruct (I2 q Hqne Hall) as [H1 _]. congruence.
      - destruct (list_eq_dec key_dec q ql) as [->|Hneq]; [eauto|]. exfalso.
        destruct Hcmp as [Hqp|Hqp].
        + destruct (I3 q) as [[d1 H1] [d2 H2]]; [right; eauto 6|].
          unfold obsolete_leaf in Hcq. rewrite H2 in Hcq. rewrite Hgq in H1. inversion H1; subst n.
          simpl in Hcq. congruence.
        + apply is_prefix_ex in Hqp. destruct Hqp as [[|k r] ->]; [rewrite app_nil_r in Hneq; congruence|].
          destruct (I1 _ _ Hin) as [p0 [v0 [_ [_ [_ Hpt]]]]].
          unfold obsolete_leaf in Hcq. rewrite (ptree_get_beyond _ _ k r _ Hpt) in Hcq. congruence. }
    destruct Hleaf as [n0 Hin0].
    assert (Hfr1 : Forall free r1).
    { apply is_prefix_ex in Hpre. destruct Hpre as [r ->]. apply Forall_app in Hfp. tauto. }
    assert (r1 = q) by (eapply join_keys_inj; eauto). subst r1.
    exists q, n0. split; [assumption|].
    destruct (list_eq_dec key_dec p q) as [->|Hneq]; [left; reflexivity|right]. split; [assumption|].
    destruct (I1 _ _ Hin0) as [p0 [v0 [Hp0 [_ [_ Hpt]]]]].
    eapply dict_typed_parser; [exact Hp0|].
    assert (Hd1 : is_dict n1 = true).
    { apply is_prefix_ex in Hpre. destruct Hpre as [[|k r] ->]; [rewrite app_nil_r in Hneq; congruence|].
      rewrite get_nested_app, Hg1 in Hg. cbn [bind get_nested] in Hg.
      apply Forall_app in Hfp. destruct Hfp as [_ Hfp]. inversion Hfp; subst.
      destruct k as [ks|]; [|contradiction]. destruct n1; cbn in Hg; try congruence. reflexivity. }
    unfold obsolete_leaf in Hcr. rewrite Hpt in Hcr. rewrite Hd1 in Hcr.
    destruct (p_type p0); simpl in Hcr; try congruence; auto.
  Qed.
End facts.
