(** Results of the parsers, idempotence of validation, parameter references. *)
From Coq Require Import Lia.
From Verif Require Import PyBase NestedDict NestedDictFacts Parsers Config ConfigFacts ConfigFacts2.

(** ** Parser results *)
Definition le_num (a b : pyval) : Prop :=
  match num_of a, num_of b with
  | Some x, Some y => fltb y x = false
  | _, _ => False
  end.

Lemma check_bounds_ok p v w : check_bounds p v = Ok w -> w = v /\ le_num (p_min p) v /\ le_num v (p_max p).
Proof.
  intros H. split; [eapply check_bounds_id; eauto|].
  unfold check_bounds, py_ltb in H. unfold le_num.
  destruct (num_of v) as [x|] eqn:Ex; cbn [bind] in H; [|congruence].
  destruct (num_of (p_min p)) as [y|] eqn:Ey; cbn [bind] in H; [|congruence].
  destruct (fltb x y) eqn:E1; [congruence|].
  destruct (num_of (p_max p)) as [z|] eqn:Ez; cbn [bind] in H; [|congruence].
  destruct (fltb z x) eqn:E2; [congruence|]. auto.
Qed.

Lemma parse_num o p v w : p_type p = TFloat \/ p_type p = TInt -> parse o p v = Ok w ->
  (w = VBool false /\ p_cbf p = true /\ is_falsy v = true) \/
  (le_num (p_min p) w /\ le_num w (p_max p) /\
   (p_type p = TFloat -> exists f, w = VFloat f) /\ (p_type p = TInt -> exists z, w = VInt z)).
Proof.
  destruct p as [ty d c mn mx al u vp kp]. cbn [p_type p_cbf p_min p_max]. intros Hty H. cbn [parse] in H.
  destruct (c && is_falsy v) eqn:Ec.
  - apply andb_true_iff in Ec. destruct Ec; subst. inversion H; auto.
  - right. destruct Hty as [->| ->].
    + destruct (py_float v) as [f|]; cbn [bind] in H; [|congruence].
      apply check_bounds_ok in H. cbn [p_min p_max] in H. destruct H as [-> [H1 H2]].
      split; [assumption|]. split; [assumption|]. split; [eauto|congruence].
    + destruct (py_int v) as [z|]; cbn [bind] in H; [|congruence].
      apply check_bounds_ok in H. cbn [p_min p_max] in H. destruct H as [-> [H1 H2]].
      split; [assumption|]. split; [assumption|]. split; [congruence|eauto].
Qed.

Lemma parse_enum o p v w : p_type p = TEnum -> parse o p v = Ok w ->
  (w = VBool false /\ p_cbf p = true /\ is_falsy v = true) \/ (w = v /\ py_in w (p_allowed p) = true).
Proof.
  destruct p as [ty d c mn mx al u vp kp]. cbn [p_type p_cbf p_allowed]. intros -> H. cbn [parse] in H.
  destruct (c && is_falsy v) eqn:Ec.
  - apply andb_true_iff in Ec. destruct Ec; subst. inversion H; auto.
  - right. destruct (py_in v al) eqn:E; inversion H; subst; auto.
Qed.

Lemma parse_false o p v : p_cbf p = true -> is_falsy v = true -> parse o p v = Ok (VBool false).
Proof. destruct p as [ty d c mn mx al u vp kp]. cbn [p_cbf]. intros -> H. cbn [parse]. rewrite H. reflexivity. Qed.

(** what is falsy *)
Lemma is_falsy_spec v : is_falsy v = true <->
  v = VBool false \/ v = VInt 0 \/ (exists q, v = VFloat (FFin q) /\ (q == 0)%Q) \/
  v = VStr "False" \/ v = VStr "false" \/ v = VStr "no".
Proof.
  unfold is_falsy, py_in. destruct v as [|b|z|f|s|l|d]; cbn [existsb py_eqb num_of].
  - split; [discriminate|]. intuition; try discriminate. destruct H0 as [q [H _]]; discriminate.
  - destruct b; cbn; split; intros H; try discriminate H; auto.
    intuition; try discriminate. destruct H0 as [q [H _]]; discriminate.
  - cbn. unfold Qeq_bool; cbn. rewrite Z.mul_1_r, !orb_false_r, orb_diag. rewrite <- Zeq_is_eq_bool.
    split; [intros ->; auto|]. intuition; try discriminate; [congruence|]. destruct H0 as [q [H _]]; discriminate.
  - cbn. destruct f as [q| | |]; cbn.
    + rewrite !orb_false_r, orb_diag. rewrite Qeq_bool_iff. split.
      * intros H. right; right; left. eauto.
      * intuition; try discriminate. destruct H0 as [q' [H H']]. inversion H; subst; assumption.
    + split; [discriminate|]. intuition; try discriminate. destruct H0 as [q' [H H']]; discriminate.
    + split; [discriminate|]. intuition; try discriminate. destruct H0 as [q' [H H']]; discriminate.
    + split; [discriminate|]. intuition; try discriminate. destruct H0 as [q' [H H']]; discriminate.
  - cbn. rewrite !orb_false_r, !orb_true_iff, !String.eqb_eq. split.
    + intros [->|[->| ->]]; auto 7.
    + intuition; try discriminate; try (destruct H0 as [q' [H H']]; discriminate); subst;
        match goal with H : VStr _ = VStr _ |- _ => inversion H; subst; auto end.
  - split; [discriminate|]. intuition; try discriminate. destruct H0 as [q [H _]]; discriminate.
  - split; [discriminate|]. intuition; try discriminate. destruct H0 as [q [H _]]; discriminate.
Qed.

(** ** Idempotence *)
Definition key_parser_safe (kp : option parser) : bool :=
  match kp with
  | None => true
  | Some q => match p_type q with TStr | TFilepath => negb (p_cbf q) | _ => false end
  end.
Fixpoint reparse_safe (p : parser) : bool :=
  let '(Parser ty _ c _ _ _ _ vp kp) := p in
  match ty with
  | TFloat | TInt | TStr | TFilepath | TStrOrPlainDict => negb c
  | TBool | TEnum | TQuantity => true
  | TList | TDict | TDatasource =>
      key_parser_safe kp && match vp with Some q => reparse_safe q | None => true end
  end.

Lemma is_falsy_false : is_falsy (VBool false) = true.
Proof. reflexivity. Qed.

Lemma fold_result_ext {A S} (f g : S -> A -> result S) l s :
  (forall s x, In x l -> f s x = g s x) -> fold_result f l s = fold_result g l s.
Proof.
  revert s; induction l as [|x l IH]; intros s H; cbn [fold_result]; [reflexivity|].
  rewrite H by (left; reflexivity). destruct (g s x); cbn [bind]; [|reflexivity].
  apply IH. intros; apply H; right; assumption.
Qed.

Lemma dset_app {A} (d : list (key * A)) k v : ~ In k (map fst d) -> dset d k v = d ++ [(k, v)].
Proof.
  induction d as [|[k' v'] d IH]; simpl; intros H; [reflexivity|].
  destruct (key_eqb k' k) eqn:E; [apply key_eqb_eq in E; subst; tauto|]. rewrite IH by tauto. reflexivity.
Qed.

(** re-reading a dictionary built by the comprehension gives it back *)
Lemma reparse_entries pk pv (d : pydict) :
  NoDup (map fst d) ->
  (forall k v, In (k, v) d -> pk k = Ok (val_of_key k) /\ pv v = Ok v) ->
  fold_result (parse_entry pk pv) d [] = Ok d.
Proof.
  assert (G : forall l acc, NoDup (map fst (acc ++ l)) ->
    (forall k v, In (k, v) l -> pk k = Ok (val_of_key k) /\ pv v = Ok v) ->
    fold_result (parse_entry pk pv) l acc = Ok (acc ++ l)).
  { induction l as [|[k v] l IH]; intros acc Hnd H; cbn [fold_result]; [rewrite app_nil_r; reflexivity|].
    unfold parse_entry at 1. cbn [fst snd]. destruct (H k v (or_introl eq_refl)) as [H1 H2].
    rewrite H1. cbn [bind]. replace (key_of_val (val_of_key k)) with (Ok k) by (destruct k; reflexivity).
    cbn [bind]. rewrite H2. cbn [bind]. rewrite dset_app.
    - rewrite IH.
      + rewrite <- app_assoc. reflexivity.
      + rewrite <- app_assoc. exact Hnd.
      + intros; apply H; right; assumption.
    - rewrite map_app in Hnd. simpl in Hnd. apply NoDup_remove_2 in Hnd. intros Hin. apply Hnd.
      apply in_or_app; auto. }
  intros Hnd H. apply (G d []); assumption.
Qed.

(** entries of the built dictionary come from parsed keys and values *)
Lemma parse_entries_from pk pv (d : pydict) : forall acc acc', fold_result (parse_entry pk pv) d acc = Ok acc' ->
  (NoDup (map fst acc) -> NoDup (map fst acc')) /\
  forall k v, In (k, v) acc' -> In (k, v) acc \/
    exists k0 v0 kv, In (k0, v0) d /\ pk k0 = Ok kv /\ key_of_val kv = Ok k /\ pv v0 = Ok v.
Proof.
  induction d as [|[k v] d IH]; intros acc acc' H; cbn [fold_result] in H.
  - inversion H; subst. split; auto.
  - unfold parse_entry in H at 1. cbn [fst snd] in H.
    destruct (pk k) as [k'|] eqn:Ek; cbn [bind] in H; [|congruence].
    destruct (key_of_val k') as [kk|] eqn:Ekk; cbn [bind] in H; [|congruence].
    destruct (pv v) as [v'|] eqn:Ev; cbn [bind] in H; [|congruence].
    destruct (IH _ _ H) as [H1 H2]. split; [intros Hn; apply H1, dset_keys_NoDup, Hn|].
    intros k2 v2 Hin. destruct (H2 _ _ Hin) as [Hd|Hd].
    + apply In_dset in Hd. destruct Hd as [[-> ->]|Hd]; [|auto].
      right. exists k, v, k'. simpl. auto.
    + right. destruct Hd as [k0 [v0 [kv Hd]]]. exists k0, v0, kv. simpl. intuition.
Qed.

Section idem.
  Variable o : oracles.

  Lemma key_parser_idem kp k kv kk : key_parser_safe kp = true ->
    match kp with Some q => parse o q (val_of_key k) | None => Ok (val_of_key k) end = Ok kv ->
    key_of_val kv = Ok kk ->
    match kp with Some q => parse o q (val_of_key kk) | None => Ok (val_of_key kk) end = Ok (val_of_key kk).
  Proof.
    destruct kp as [[ty d c mn mx al u vp kp']|]; [|reflexivity]. cbn [key_parser_safe p_type p_cbf].
    intros Hs H Hk.
    destruct ty; try discriminate Hs; apply negb_true_iff in Hs; subst c; cbn [parse andb] in *;
      inversion H; subst kv; cbn [key_of_val] in Hk; inversion Hk; subst kk; reflexivity.
  Qed.

  Lemma parse_idem p : forall v w, parse o p v = Ok w -> reparse_safe p = true -> parse o p w = Ok w.
  Proof.
    induction p as [ty d c mn mx al u vp kp IHv IHk] using parser_ind'. intros v w H Hs.
    cbn [parse] in H. destruct (c && is_falsy v) eqn:Ec.
    { inversion H; subst. apply andb_true_iff in Ec. destruct Ec; subst c. apply parse_false; reflexivity. }
    assert (Hitem : key_parser_safe kp && match vp with Some q => reparse_safe q | None => true end = true ->
       forall x x', match vp with Some q => parse o q x | None => Ok x end = Ok x' ->
                    match vp with Some q => parse o q x' | None => Ok x' end = Ok x').
    { intros Hsub x x' Hx. apply andb_true_iff in Hsub. destruct Hsub as [_ Hsub].
      destruct vp as [q|]; [eapply IHv; eauto | reflexivity]. }
    assert (Hdict : key_parser_safe kp && match vp with Some q => reparse_safe q | None => true end = true ->
       forall d0 l',
       fold_result (fun acc kv =>
          do k' <- match kp with Some q => parse o q (val_of_key (fst kv)) | None => Ok (val_of_key (fst kv)) end;
          do kk <- key_of_val k';
          do v' <- match vp with Some q => parse o q (snd kv) | None => Ok (snd kv) end;
          Ok (dset acc kk v')) d0 [] = Ok l' ->
       fold_result (fun acc kv =>
          do k' <- match kp with Some q => parse o q (val_of_key (fst kv)) | None => Ok (val_of_key (fst kv)) end;
          do kk <- key_of_val k';
          do v' <- match vp with Some q => parse o q (snd kv) | None => Ok (snd kv) end;
          Ok (dset acc kk v')) l' [] = Ok l').
    { intros Hsub d0 l' Hl.
      set (pk := fun k => match kp with Some q => parse o q (val_of_key k) | None => Ok (val_of_key k) end).
      set (pv := fun x => match vp with Some q => parse o q x | None => Ok x end).
      change (fold_result (parse_entry pk pv) l' [] = Ok l').
      change (fold_result (parse_entry pk pv) d0 [] = Ok l') in Hl.
      destruct (parse_entries_from pk pv d0 [] l' Hl) as [Hn Hin].
      apply reparse_entries; [apply Hn; constructor|].
      intros k x Hkx. destruct (Hin _ _ Hkx) as [[]|[k0 [v0 [kv [H1 [H2 [H3 H4]]]]]]]. split.
      - eapply key_parser_idem; [apply andb_true_iff in Hsub; apply Hsub | exact H2 | exact H3].
      - eapply Hitem; eauto. }
    cbn [reparse_safe] in Hs. cbn [parse].
    destruct ty.
    - apply negb_true_iff in Hs. subst c. cbn [andb].
      destruct (py_float v) as [f|]; cbn [bind] in H; [|congruence].
      pose proof (check_bounds_id _ _ _ H) as ->. exact H.
    - apply negb_true_iff in Hs. subst c. cbn [andb].
      destruct (py_int v) as [f|]; cbn [bind] in H; [|congruence].
      pose proof (check_bounds_id _ _ _ H) as ->. exact H.
    - destruct (is_truthy v); [inversion H; subst; destruct c; reflexivity|].
      destruct (is_falsy v); inversion H; subst; destruct c; reflexivity.
    - apply negb_true_iff in Hs. subst c. inversion H; reflexivity.
    - destruct (py_in v al) eqn:E; inversion H; subst. rewrite Ec, E. reflexivity.
    - destruct (quant o v u false) as [q|e] eqn:E; [|destruct e; congruence]. inversion H; subst.
      rewrite Ec, E. reflexivity.
    - assert (Hl : exists l', w = VList l').
      { destruct v; try congruence; [inversion H; eauto|].
        match type of H with bind ?m _ = _ => destruct m as [l'|] eqn:E end; cbn [bind] in H; inversion H; eauto. }
      destruct Hl as [l' ->]. replace (is_falsy (VList l')) with false by (destruct l'; reflexivity).
      rewrite andb_false_r.
      destruct v; try congruence; [inversion H; reflexivity|].
      match type of H with bind ?m _ = _ => destruct m as [l2|] eqn:E end; cbn [bind] in H; [|congruence].
      inversion H; subst. apply map_result_Forall2 in E.
      match goal with |- bind ?m _ = _ => assert (Hm : m = Ok l') end; [|rewrite Hm; reflexivity].
      clear -E Hitem Hs. induction E as [|x y l1 l2 Hxy E IH]; [reflexivity|]. cbn [map_result].
      rewrite (Hitem Hs _ _ Hxy). cbn [bind]. rewrite IH. reflexivity.
    - assert (Hl : exists l', w = VDict l').
      { destruct v; try congruence; [inversion H; eauto|].
        match type of H with bind ?m _ = _ => destruct m as [l'|] eqn:E end; cbn [bind] in H; inversion H; eauto. }
      destruct Hl as [l' ->]. replace (is_falsy (VDict l')) with false by (destruct l'; reflexivity).
      rewrite andb_false_r.
      destruct v; try congruence; [inversion H; reflexivity|].
      match type of H with bind ?m _ = _ => destruct m as [l2|] eqn:E end; cbn [bind] in H; [|congruence].
      inversion H; subst. rewrite (Hdict Hs _ _ E). reflexivity.
    - assert (Hl : exists l', w = VDict l').
      { destruct v; try congruence.
        match type of H with bind ?m _ = _ => destruct m as [l'|] eqn:E end; cbn [bind] in H; [|congruence].
        match type of H with (if ?b then _ else _) = _ => destruct b end; inversion H; eauto. }
      destruct Hl as [l' ->]. replace (is_falsy (VDict l')) with false by (destruct l'; reflexivity).
      rewrite andb_false_r.
      destruct v; try congruence.
      match type of H with bind ?m _ = _ => destruct m as [l2|] eqn:E end; cbn [bind] in H; [|congruence].
      match type of H with (if ?b then _ else _) = _ => destruct b eqn:Eb end; [|congruence].
      inversion H; subst. rewrite (Hdict Hs _ _ E). cbn [bind]. rewrite Eb. reflexivity.
    - apply negb_true_iff in Hs. subst c. inversion H; reflexivity.
    - apply negb_true_iff in Hs. subst c. cbn [andb].
      destruct v; inversion H; subst; reflexivity.
  Qed.

  (** a can_be_false float is stable unless it was parsed to zero *)
  Lemma parse_idem_float p v w : p_type p = TFloat -> parse o p v = Ok w ->
    (forall q, w = VFloat (FFin q) -> ~ (q == 0)%Q) -> parse o p w = Ok w.
  Proof.
    destruct p as [ty d c mn mx al u vp kp]. cbn [p_type]. intros -> H Hnz. cbn [parse] in *.
    destruct (c && is_falsy v) eqn:Ec.
    { inversion H; subst. apply andb_true_iff in Ec. destruct Ec; subst c. reflexivity. }
    destruct (py_float v) as [f|] eqn:Ef; cbn [bind] in H; [|congruence].
    pose proof (check_bounds_id _ _ _ H) as ->.
    replace (is_falsy (VFloat f)) with false.
    - rewrite andb_false_r. exact H.
    - symmetry. apply not_true_iff_false. rewrite is_falsy_spec.
      intros [E|[E|[[q [E Hq]]|[E|[E|E]]]]]; try discriminate E. inversion E; subst. eapply Hnz; eauto.
  Qed.

  Definition leaf_safe (parsed : pyval) (leaf : list key * pyval) : Prop :=
    forall p, create_parser (snd leaf) = Ok p ->
      reparse_safe p = true \/
      (p_type p = TFloat /\ forall q, get_nested parsed (fst leaf) = Ok (VFloat (FFin q)) -> ~ (q == 0)%Q).

  Lemma check_params_idem template user st :
    wfb template = true -> check_params o template user = Ok st ->
    Forall (leaf_safe (fst st)) (leaves schema_leaf [] template) ->
    check_params o template (fst st) = Ok st.
  Proof.
    intros Ht H Hsafe. unfold check_params in *.
    destruct (parse_params o template user) as [st0|] eqn:Ep; cbn [bind] in H; [|congruence].
    destruct (check_obsolete_params user (fst st0) (snd st0)) as [u|] eqn:Ec; cbn [bind] in H; [|congruence].
    inversion H; subst st0; clear H.
    pose proof (parse_params_inv o template user st Ht Ep) as [I1 [I2 I3]].
    assert (Ep2 : parse_params o template (fst st) = Ok st).
    { unfold parse_params in *. destruct template as [| | | | | |d]; try congruence. rewrite <- Ep.
      apply fold_result_ext. intros s0 [q n] Hin. unfold parse_leaf. destruct s0 as [parsed tree].
      destruct (I1 _ _ Hin) as [p [v [H1 [H2 [H3 H4]]]]]. rewrite H1. cbn [bind].
      destruct (ptree_set tree q p); cbn [bind]; [|reflexivity].
      assert (Hv : parse o p v = Ok v).
      { assert (Hv0 : exists v0, parse o p v0 = Ok v).
        { unfold parser_get in H2. destruct (get_nested user q) as [x|e]; [eauto|]. destruct e; try congruence; eauto. }
        destruct Hv0 as [v0 Hv0]. rewrite Forall_forall in Hsafe.
        destruct (Hsafe _ Hin p H1) as [Hs|[Hf Hz]]; [eapply parse_idem; eauto|].
        eapply parse_idem_float; eauto. intros q0 ->. apply Hz. exact H3. }
      unfold parser_get at 1. rewrite H3, Hv, H2. reflexivity. }
    rewrite Ep2. cbn [bind].
    assert (Ec2 : check_obsolete_params (fst st) (fst st) (snd st) = Ok tt).
    { unfold check_obsolete_params in *.
      destruct (flatten (obsolete_leaf (snd st)) user) as [ku|]; cbn [bind] in Ec; [|congruence].
      destruct (flatten (obsolete_leaf (snd st)) (fst st)) as [kp|]; cbn [bind] in *; [|congruence].
      assert (forallb (fun kv => dmem kp (fst kv)) kp = true) as ->; [|reflexivity].
      apply forallb_forall. intros [k x] Hk. apply dmem_In. apply in_map, Hk. }
    rewrite Ec2. reflexivity.
  Qed.
End idem.

(** ** References *)
Lemma value_leaf_nondict x : is_dict x = false -> value_leaf x = true.
Proof. unfold value_leaf. intros ->. reflexivity. Qed.
Lemma value_leaf_true x : value_leaf x = true -> is_dict x = false.
Proof. unfold value_leaf. destruct (is_dict x); [discriminate|reflexivity]. Qed.

(** what one visit does to other paths *)
Lemma resolve_leaf_other params leaf params' p :
  resolve_leaf params leaf = Ok params' -> incomparable p (fst leaf) ->
  get_nested params' p = get_nested params p.
Proof.
  destruct leaf as [ks node]. unfold resolve_leaf. cbn [fst snd]. intros H Hinc.
  destruct node as [| | | |node| |]; try (inversion H; reflexivity).
  revert params H. induction (findall_refs node) as [|m ms IH]; intros params H; cbn [fold_result] in H;
    [inversion H; reflexivity|].
  destruct (resolve_match ks node params m) as [p1|] eqn:E; cbn [bind] in H; [|congruence].
  rewrite (IH _ H). unfold resolve_match in E.
  destruct (get_nested params (map KStr (str_split m " - "))) as [x|e]; [|destruct e; congruence].
  destruct x; try congruence.
  destruct (set_nested params ks (VStr (str_replace node ("{" ++ m ++ "}") s))) as [p2|e] eqn:Es.
  - inversion E; subst. eapply get_set_other; eauto.
  - destruct e; congruence.
Qed.

Lemma resolve_fold_other L params params' p :
  fold_result resolve_leaf L params = Ok params' -> (forall q n, In (q, n) L -> incomparable p q) ->
  get_nested params' p = get_nested params p.
Proof.
  revert params; induction L as [|[q n] L IH]; intros params H Hinc; cbn [fold_result] in H;
    [inversion H; reflexivity|].
  destruct (resolve_leaf params (q, n)) as [p1|] eqn:E; cbn [bind] in H; [|congruence].
  rewrite (IH _ H) by (intros; eapply Hinc; right; eassumption).
  eapply resolve_leaf_other; eauto. simpl. eapply Hinc. left; reflexivity.
Qed.

Lemma FOP_split {A} (R : A -> A -> Prop) l1 x l2 :
  ForallOrdPairs R (l1 ++ x :: l2) -> Forall (fun a => R a x) l1 /\ Forall (R x) l2.
Proof.
  induction l1 as [|a l1 IH]; simpl; intros H; inversion H as [|? ? Ha Hr]; subst.
  - split; [constructor|assumption].
  - destruct (IH Hr) as [H1 H2]. split; [|assumption]. constructor; [|assumption].
    rewrite Forall_forall in Ha. apply Ha, in_or_app. right; left; reflexivity.
Qed.

(** The value at a leaf after parse_param_values: the leaf's own visit applied to the state
    before it, in which the leaf still has its original value. *)
Lemma resolve_at_leaf params params' q n :
  wfb params = true -> parse_param_values params = Ok params' ->
  In (q, n) (leaves value_leaf [] params) ->
  exists s s' L1 L2, leaves value_leaf [] params = L1 ++ (q, n) :: L2 /\
    fold_result resolve_leaf L1 params = Ok s /\ resolve_leaf s (q, n) = Ok s' /\
    get_nested s q = Ok n /\ get_nested params' q = get_nested s' q /\
    (forall p, (forall a b, In (a, b) L1 -> incomparable p a) -> get_nested s p = get_nested params p).
Proof.
  intros Hwf H Hin. unfold parse_param_values in H. destruct params as [| | | | | |d]; try congruence.
  pose proof (leaves_incomparable value_leaf (VDict d) Hwf []) as Hop.
  pose proof (leaves_get value_leaf (VDict d) Hwf [] q n Hin) as Hg.
  set (L := leaves value_leaf [] (VDict d)) in *.
  destruct (in_split _ _ Hin) as [L1 [L2 HL]].
  rewrite HL in H. rewrite (fold_result_app resolve_leaf L1 ((q, n) :: L2)) in H.
  destruct (fold_result resolve_leaf L1 (VDict d)) as [s|] eqn:E1; cbn [bind] in H; [|congruence].
  cbn [fold_result] in H. destruct (resolve_leaf s (q, n)) as [s'|] eqn:E2; cbn [bind] in H; [|congruence].
  rewrite HL in Hop. apply FOP_split in Hop. destruct Hop as [Ho1 Ho2].
  rewrite Forall_forall in Ho1, Ho2.
  assert (Hs : forall p, (forall a b, In (a, b) L1 -> incomparable p a) -> get_nested s p = get_nested (VDict d) p).
  { intros p Hp. eapply resolve_fold_other; eauto. }
  exists s, s', L1, L2. repeat split; auto.
  - rewrite Hs; [exact Hg|]. intros a b Hab. apply incomparable_sym. apply (Ho1 (a, b) Hab).
  - eapply resolve_fold_other; [exact H|]. intros a b Hab. apply (Ho2 (a, b) Hab).
Qed.

Lemma resolve_unchanged params params' q n :
  wfb params = true -> parse_param_values params = Ok params' -> In (q, n) (leaves value_leaf [] params) ->
  (forall s, n = VStr s -> findall_refs s = []) -> get_nested params' q = Ok n.
Proof.
  intros Hwf H Hin Hno. destruct (resolve_at_leaf _ _ _ _ Hwf H Hin) as [s [s' [L1 [L2 [_ [_ [H2 [H3 [H4 _]]]]]]]]].
  rewrite H4. unfold resolve_leaf in H2. cbn [fst snd] in H2.
  destruct n as [| | | |str| |]; try (inversion H2; subst; assumption).
  rewrite (Hno str eq_refl) in H2. inversion H2; subst; assumption.
Qed.

(** single reference to a string parameter that itself has no reference *)
Lemma resolve_single params params' q node m qr other :
  wfb params = true -> parse_param_values params = Ok params' ->
  In (q, VStr node) (leaves value_leaf [] params) -> findall_refs node = [m] ->
  qr = map KStr (str_split m " - ") -> In (qr, VStr other) (leaves value_leaf [] params) ->
  findall_refs other = [] ->
  get_nested params' q = Ok (VStr (str_replace node ("{" ++ m ++ "}") other)).
Proof.
  intros Hwf H Hin Hrefs Hqr Hinr Hno.
  destruct (resolve_at_leaf _ _ _ _ Hwf H Hin) as [s [s' [L1 [L2 [HL [H1 [H2 [H3 [H4 H5]]]]]]]]].
  rewrite H4. unfold resolve_leaf in H2. cbn [fst snd] in H2. rewrite Hrefs in H2. cbn [fold_result] in H2.
  destruct (resolve_match q node s m) as [s1|] eqn:E; cbn [bind] in H2; [|congruence]. inversion H2; subst s1.
  assert (Hget : get_nested s qr = Ok (VStr other)).
  { (* the referenced leaf is unchanged in s *)
    assert (Hpar : get_nested params qr = Ok (VStr other)) by (apply (leaves_get value_leaf params Hwf [] qr _ Hinr)).
    pose proof (leaves_incomparable value_leaf params Hwf []) as Hop.
    assert (G : forall l l2 s0 s1, leaves value_leaf [] params = l ++ l2 -> s0 = params ->
       fold_result resolve_leaf l s0 = Ok s1 -> get_nested s1 qr = Ok (VStr other)).
    { clear s s' L1 L2 HL H1 H2 H3 H4 H5 E. intros l l2 s0 s1 Hl -> Hf.
      destruct (in_dec (list_eq_dec key_dec) qr (map fst l)) as [Hi|Hni].
      - apply in_map_iff in Hi. destruct Hi as [[qr' nn] [Hq Hi]]. simpl in Hq. subst qr'.
        assert (nn = VStr other).
        { pose proof (leaves_get value_leaf params Hwf [] qr nn) as Hg. simpl in Hg.
          rewrite Hpar in Hg. rewrite Hl in Hg. specialize (Hg (in_or_app _ _ _ (or_introl Hi))). congruence. }
        subst nn. destruct (in_split _ _ Hi) as [l3 [l4 ->]].
        rewrite fold_result_app in Hf.
        destruct (fold_result resolve_leaf l3 params) as [s2|] eqn:E3; cbn [bind] in Hf; [|congruence].
        cbn [fold_result] in Hf. unfold resolve_leaf in Hf at 1. cbn [fst snd] in Hf. rewrite Hno in Hf.
        cbn [fold_result bind] in Hf.
        rewrite Hl in Hop. rewrite <- app_assoc in Hop. apply FOP_split in Hop. destruct Hop as [Ho1 Ho2].
        rewrite Forall_forall in Ho1, Ho2.
        rewrite (resolve_fold_other _ _ _ _ Hf).
        + rewrite (resolve_fold_other _ _ _ _ E3); [assumption|].
          intros a b Hab. apply incomparable_sym. apply (Ho1 (a, b) Hab).
        + intros a b Hab. apply (Ho2 (a, b)). apply in_or_app. left. assumption.
      - rewrite (resolve_fold_other _ _ _ _ Hf); [assumption|].
        intros a b Hab. assert (Hinr2 := Hinr). rewrite Hl in Hinr2. apply in_app_or in Hinr2.
        destruct Hinr2 as [Hinr2|Hinr2]; [exfalso; apply Hni; change qr with (fst (qr, VStr other)); apply in_map; assumption|].
        destruct (in_split _ _ Hinr2) as [l5 [l6 ->]].
        rewrite Hl in Hop. rewrite app_assoc in Hop. apply FOP_split in Hop. destruct Hop as [Ho1 _].
        rewrite Forall_forall in Ho1. apply incomparable_sym. apply (Ho1 (a, b)). apply in_or_app. left. assumption. }
    eapply (G L1 _ params s HL eq_refl H1). }
  unfold resolve_match in E. rewrite <- Hqr, Hget in E.
  destruct (set_nested s q (VStr (str_replace node ("{" ++ m ++ "}") other))) as [s2|e] eqn:Es.
  - inversion E; subst. eapply get_set_same; eauto.
  - destruct e; try congruence. exfalso.
    clear -Es. revert s Es. induction q as [|k r IH]; intros s Es; simpl in Es; [congruence|].
    destruct s as [| | | | | |d]; try congruence. destruct r as [|k2 r]; [congruence|].
    match type of Es with bind ?x _ = _ => destruct x eqn:E2 end; cbn [bind] in Es; [congruence|].
    inversion Es; subst. eapply IH; exact E2.
Qed.

(** references to parameters that do not exist are left alone *)
Lemma resolve_missing params params' q node :
  wfb params = true -> parse_param_values params = Ok params' ->
  In (q, VStr node) (leaves value_leaf [] params) ->
  (forall m, In m (findall_refs node) ->
     forall a b, In (a, b) (leaves value_leaf [] params) ->
       incomparable (map KStr (str_split m " - ")) a) ->
  (forall m, In m (findall_refs node) -> get_nested params (map KStr (str_split m " - ")) = Err KeyError) ->
  get_nested params' q = Ok (VStr node).
Proof.
  intros Hwf H Hin Hinc Hmiss.
  destruct (resolve_at_leaf _ _ _ _ Hwf H Hin) as [s [s' [L1 [L2 [HL [H1 [H2 [H3 [H4 H5]]]]]]]]].
  rewrite H4. unfold resolve_leaf in H2. cbn [fst snd] in H2.
  assert (Hs : forall m, In m (findall_refs node) -> get_nested s (map KStr (str_split m " - ")) = Err KeyError).
  { intros m Hm. rewrite H5; [auto|]. intros a b Hab. eapply Hinc; [exact Hm|].
    rewrite HL. apply in_or_app. left; exact Hab. }
  assert (G : forall ms, (forall m, In m ms -> get_nested s (map KStr (str_split m " - ")) = Err KeyError) ->
     fold_result (resolve_match q node) ms s = Ok s' -> s' = s).
  { induction ms as [|m ms IH]; intros Hms Hf; cbn [fold_result] in Hf; [inversion Hf; reflexivity|].
    unfold resolve_match in Hf at 1. rewrite Hms in Hf by (left; reflexivity). cbn [bind] in Hf.
    apply IH; [intros; apply Hms; right; assumption | assumption]. }
  rewrite (G _ Hs H2). assumption.
Qed.
