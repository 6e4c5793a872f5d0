(** Facts about template traversal, parse_params, check_params and parse_param_values
    (models: Parsers.v, Config.v). *)
From Coq Require Import Lia.
From Verif Require Import PyBase NestedDict NestedDictFacts Parsers Config.

(** ** Well-formed values: every dictionary has pairwise different keys *)
Fixpoint nodup_keys (l : list key) : bool :=
  match l with [] => true | k :: r => negb (existsb (key_eqb k) r) && nodup_keys r end.
Fixpoint wfb (v : pyval) : bool :=
  match v with
  | VDict d =>
      nodup_keys (map fst d) &&
      (fix go (l : pydict) : bool := match l with [] => true | (_, x) :: r => wfb x && go r end) d
  | VList l => (fix go (l : list pyval) : bool := match l with [] => true | x :: r => wfb x && go r end) l
  | _ => true
  end.

Lemma nodup_keys_NoDup l : nodup_keys l = true <-> NoDup l.
Proof.
  induction l as [|k l IH]; simpl; [split; auto using NoDup_nil|].
  rewrite andb_true_iff, negb_true_iff, IH. split.
  - intros [H1 H2]. constructor; [|assumption]. intros Hin.
    rewrite <- not_true_iff_false in H1. apply H1. apply existsb_exists. exists k. auto using key_eqb_refl.
  - intros H; inversion H; subst. split; [|assumption].
    apply not_true_iff_false. rewrite existsb_exists. intros [x [Hx He]].
    apply key_eqb_eq in He. subst. tauto.
Qed.
Lemma wfb_dict d : wfb (VDict d) = true <-> NoDup (map fst d) /\ forall k v, In (k, v) d -> wfb v = true.
Proof.
  cbn [wfb]. rewrite andb_true_iff, nodup_keys_NoDup. apply and_iff_compat_l.
  induction d as [|[k v] d IH]; simpl.
  - intuition.
  - rewrite andb_true_iff, IH. split.
    + intros [H1 H2] k' v' [H|H]; [inversion H; subst; auto | eauto].
    + intros H. split; [eapply H; left; reflexivity | intros; eapply H; right; eassumption].
Qed.
Lemma wfb_get v p w : wfb v = true -> str_path p -> get_nested v p = Ok w -> wfb w = true.
Proof.
  revert v; induction p as [|k p IH]; intros v Hv Hs H; simpl in H; [inversion H; subst; assumption|].
  inversion Hs as [|? ? [s ->] Hs']; subst.
  destruct v as [| | | | | |d]; try (simpl in H; congruence).
  cbn [subscript] in H. destruct (dget d (KStr s)) as [x|] eqn:E; cbn [bind] in H; [|congruence].
  eapply IH; [|eassumption|eassumption].
  apply wfb_dict in Hv. eapply (proj2 Hv), dget_In, E.
Qed.

(** ** Leaves *)
Section leaves_facts.
  Variable crit : pyval -> bool.

  Lemma leaves_dict pre d :
    leaves crit pre (VDict d) =
    flat_map (fun kn => if crit (snd kn) then [(pre ++ [fst kn], snd kn)]
                        else leaves crit (pre ++ [fst kn]) (snd kn)) d.
  Proof. cbn [leaves]. induction d as [|[k n] d IH]; simpl; [reflexivity|]. rewrite IH. reflexivity. Qed.

  Lemma leaves_prefix v : forall pre q n, In (q, n) (leaves crit pre v) -> exists k r, q = pre ++ k :: r.
  Proof.
    induction v using pyval_ind'; intros pre q n Hin; try (simpl in Hin; tauto).
    rewrite leaves_dict in Hin. apply in_flat_map in Hin. destruct Hin as [[k x] [Hd Hin]].
    simpl in Hin. rewrite Forall_forall in H. specialize (H _ Hd). simpl in H.
    destruct (crit x).
    - destruct Hin as [Hin|[]]. inversion Hin; subst. exists k, []. reflexivity.
    - destruct (H _ _ _ Hin) as [k' [r ->]]. exists k, (k' :: r). rewrite <- app_assoc. reflexivity.
  Qed.

  Lemma leaves_crit v : forall pre q n, In (q, n) (leaves crit pre v) -> crit n = true.
  Proof.
    induction v using pyval_ind'; intros pre q n Hin; try (simpl in Hin; tauto).
    rewrite leaves_dict in Hin. apply in_flat_map in Hin. destruct Hin as [[k x] [Hd Hin]].
    simpl in Hin. rewrite Forall_forall in H. specialize (H _ Hd). simpl in H.
    destruct (crit x) eqn:E; [|eauto]. destruct Hin as [Hin|[]]. inversion Hin; subst. assumption.
  Qed.

  Lemma leaves_get v : wfb v = true -> forall pre r n,
    In (pre ++ r, n) (leaves crit pre v) -> get_nested v r = Ok n.
  Proof.
    induction v using pyval_ind'; intros Hwf pre r n Hin; try (simpl in Hin; tauto).
    rewrite leaves_dict in Hin. apply in_flat_map in Hin. destruct Hin as [[k x] [Hd Hin]].
    simpl in Hin. rewrite Forall_forall in H. specialize (H _ Hd). simpl in H.
    apply wfb_dict in Hwf. destruct Hwf as [Hnd Hwf].
    destruct (crit x) eqn:E.
    - destruct Hin as [Hin|[]]. inversion Hin as [[H1 H2]]. apply app_inv_head in H1. subst.
      simpl. rewrite (In_dget _ _ _ Hnd Hd). reflexivity.
    - destruct (leaves_prefix _ _ _ _ Hin) as [k' [r' Hr]]. rewrite <- app_assoc in Hr.
      apply app_inv_head in Hr. subst r. simpl app.
      change (get_nested (VDict d) (k :: k' :: r')) with
        (do v' <- subscript (VDict d) k; get_nested v' (k' :: r')).
      cbn [subscript]. rewrite (In_dget _ _ _ Hnd Hd). cbn [bind].
      change (get_nested x (k' :: r') = Ok n).
      apply (H (Hwf _ _ Hd) (pre ++ [k])). rewrite <- app_assoc. exact Hin.
  Qed.

  Lemma FOP_app {A} (R : A -> A -> Prop) l1 l2 :
    ForallOrdPairs R l1 -> ForallOrdPairs R l2 -> (forall a b, In a l1 -> In b l2 -> R a b) ->
    ForallOrdPairs R (l1 ++ l2).
  Proof.
    induction 1 as [|a l1 Ha H1 IH]; intros H2 Hx; simpl; [assumption|]. constructor.
    - apply Forall_app. split; [assumption|]. apply Forall_forall. intros b Hb. apply Hx; simpl; auto.
    - apply IH; [assumption|]. intros; apply Hx; simpl; auto.
  Qed.

  Definition leaf_inc (a b : list key * pyval) : Prop := incomparable (fst a) (fst b).

  Lemma leaves_incomparable v : wfb v = true -> forall pre, ForallOrdPairs leaf_inc (leaves crit pre v).
  Proof.
    induction v using pyval_ind'; intros Hwf pre; try (simpl; constructor).
    rewrite leaves_dict. apply wfb_dict in Hwf. destruct Hwf as [Hnd Hwf].
    induction d as [|[k x] d IHd]; simpl; [constructor|].
    inversion Hnd as [|? ? Hk Hnd']; subst. inversion H as [|? ? Hx Hd]; subst. simpl in Hx.
    apply FOP_app.
    - destruct (crit x); [constructor; constructor|]. apply Hx. eapply Hwf; left; reflexivity.
    - apply IHd; auto. intros k' v' Hin. eapply Hwf. right; eassumption.
    - intros [p n] [q n'] Ha Hb. unfold leaf_inc; simpl.
      assert (Hp : exists r, p = pre ++ k :: r).
      { destruct (crit x); [destruct Ha as [Ha|[]]; inversion Ha; exists []; reflexivity|].
        destruct (leaves_prefix _ _ _ _ Ha) as [k' [r ->]]. exists (k' :: r). rewrite <- app_assoc. reflexivity. }
      apply in_flat_map in Hb. destruct Hb as [[k2 x2] [Hd2 Hb]]. simpl in Hb.
      assert (Hq : exists r, q = pre ++ k2 :: r).
      { destruct (crit x2); [destruct Hb as [Hb|[]]; inversion Hb; exists []; reflexivity|].
        destruct (leaves_prefix _ _ _ _ Hb) as [k' [r ->]]. exists (k' :: r). rewrite <- app_assoc. reflexivity. }
      destruct Hp as [r ->], Hq as [r2 ->]. apply incomparable_app, incomparable_neq.
      intros ->. apply Hk. change k2 with (fst (k2, x2)). apply in_map, Hd2.
  Qed.

  (** Every non-dictionary value is at or below a leaf (the criterion accepts non-dictionaries). *)
  Lemma leaves_complete v : (forall x, is_dict x = false -> crit x = true) ->
    forall pre r n, r <> [] -> str_path r -> get_nested v r = Ok n -> is_dict n = false ->
    exists r1 n1, is_prefix r1 r /\ In (pre ++ r1, n1) (leaves crit pre v).
  Proof.
    intros Hc. induction v using pyval_ind'; intros pre r n Hne Hs Hg Hn;
      destruct r as [|k r]; try tauto; inversion Hs as [|? ? [nm ->] Hs']; subst; try (simpl in Hg; congruence).
    cbn [get_nested subscript] in Hg. destruct (dget d (KStr nm)) as [x|] eqn:E; cbn [bind] in Hg; [|congruence].
    apply dget_In in E. rewrite Forall_forall in H. specialize (H _ E). simpl in H.
    destruct (crit x) eqn:Ex.
    - exists [KStr nm], x. split; [simpl; auto|]. rewrite leaves_dict. apply in_flat_map.
      exists (KStr nm, x). split; [assumption|]. simpl. rewrite Ex. left; reflexivity.
    - assert (r <> []) by (intros ->; simpl in Hg; inversion Hg; subst; rewrite Hc in Ex; congruence).
      destruct (H (pre ++ [KStr nm]) r n) as [r1 [n1 [Hp Hin]]]; auto.
      exists (KStr nm :: r1), n1. split; [simpl; auto|]. rewrite leaves_dict. apply in_flat_map.
      exists (KStr nm, x). split; [assumption|]. simpl. rewrite Ex.
      rewrite <- app_assoc in Hin. exact Hin.
  Qed.
End leaves_facts.

(** ** The parser tree *)
Lemma ptree_get_set_same t ks x t' : ptree_set t ks x = Ok t' -> ptree_get t' ks = Ok (PLeaf x).
Proof.
  revert t t'; induction ks as [|k r IH]; intros t t' H; simpl in H; [congruence|].
  destruct t as [p|d]; [congruence|].
  destruct r as [|k2 r].
  - inversion H; subst. simpl. rewrite dget_dset_same. reflexivity.
  - destruct (ptree_set _ (k2 :: r) x) as [sub'|] eqn:E; simpl in H; [|congruence].
    inversion H; subst. cbn [ptree_get]. rewrite dget_dset_same. eapply IH. exact E.
Qed.
Lemma ptree_get_set_other t ks x t' p :
  ptree_set t ks x = Ok t' -> incomparable p ks -> ptree_get t' p = ptree_get t p.
Proof.
  revert t t' p; induction ks as [|k r IH]; intros t t' p H Hinc; simpl in H; [congruence|].
  destruct t as [q|d]; [congruence|].
  destruct p as [|kp p]; [exfalso; apply (proj1 Hinc); simpl; auto|].
  destruct (key_dec k kp) as [->|Hne].
  - destruct r as [|k2 r].
    + exfalso. apply (proj2 Hinc). simpl. auto.
    + destruct (ptree_set _ (k2 :: r) x) as [sub'|] eqn:E; simpl in H; [|congruence].
      inversion H; subst. cbn [ptree_get]. rewrite dget_dset_same.
      apply incomparable_cons_inv in Hinc.
      rewrite (IH _ _ _ E Hinc). destruct (dget d kp) as [s|]; [reflexivity|].
      destruct p; [|reflexivity]. exfalso. apply (proj1 Hinc). simpl. auto.
  - assert (Hv' : exists s, t' = PNode (dset d k s)).
    { destruct r as [|k2 r]; [inversion H; eauto|].
      destruct (ptree_set _ (k2 :: r) x) as [sub'|] eqn:E; simpl in H; [|congruence].
      inversion H; eauto. }
    destruct Hv' as [s ->]. cbn [ptree_get]. rewrite dget_dset_other by assumption. reflexivity.
Qed.
(** A proper prefix of a written path is a node of the tree, never a parser. *)
Lemma ptree_get_set_prefix t ks x t' p :
  ptree_set t ks x = Ok t' -> is_prefix p ks -> p <> ks -> exists d, ptree_get t' p = Ok (PNode d).
Proof.
  revert t t' p; induction ks as [|k r IH]; intros t t' p H Hp Hne; simpl in H; [congruence|].
  destruct t as [q|d]; [congruence|].
  destruct p as [|kp p].
  - destruct r as [|k2 r]; [inversion H; simpl; eauto|].
    destruct (ptree_set _ (k2 :: r) x) as [sub'|] eqn:E; simpl in H; [|congruence].
    inversion H; simpl; eauto.
  - simpl in Hp. destruct Hp as [-> Hp]. destruct r as [|k2 r].
    + destruct p; [congruence|]. simpl in Hp. tauto.
    + destruct (ptree_set _ (k2 :: r) x) as [sub'|] eqn:E; simpl in H; [|congruence].
      inversion H; subst. cbn [ptree_get]. rewrite dget_dset_same. eapply IH; eauto. congruence.
Qed.

(** ** parse_params *)
Section config_facts.
  Variable o : oracles.

  Lemma fold_result_app {A S} (f : S -> A -> result S) l1 l2 s :
    fold_result f (l1 ++ l2) s = (do s' <- fold_result f l1 s; fold_result f l2 s').
  Proof. revert s; induction l1 as [|x l1 IH]; intros s; simpl; [reflexivity|].
         destruct (f s x); simpl; auto. Qed.

  (** State after the leaves [L] (in order). *)
  Definition parsed_inv (user : pyval) (L : list (list key * pyval)) (st : pyval * ptree) : Prop :=
    (forall q n, In (q, n) L ->
       exists p v, create_parser n = Ok p /\ parser_get o p user q = Ok v /\
                   get_nested (fst st) q = Ok v /\ ptree_get (snd st) q = Ok (PLeaf p)) /\
    (forall p, p <> [] -> (forall q n, In (q, n) L -> incomparable p q) ->
       get_nested (fst st) p = Err KeyError /\ ptree_get (snd st) p = Err KeyError) /\
    (forall p, (p = [] \/ exists q n, In (q, n) L /\ is_prefix p q /\ p <> q) ->
       (exists d, get_nested (fst st) p = Ok (VDict d)) /\ (exists d, ptree_get (snd st) p = Ok (PNode d))).

  Lemma parsed_inv_nil user : parsed_inv user [] (VDict [], PNode []).
  Proof.
    repeat split.
    - intros q n [].
    - simpl. apply get_empty. assumption.
    - destruct p; [tauto|]. reflexivity.
    - destruct H as [->|[q [n [[] _]]]]. simpl; eauto.
    - destruct H as [->|[q [n [[] _]]]]. simpl; eauto.
  Qed.

  Lemma is_prefix_trans p q r : is_prefix p q -> is_prefix q r -> is_prefix p r.
  Proof.
    revert q r; induction p as [|x p IH]; intros q r H1 H2; simpl; auto.
    destruct q as [|y q]; [simpl in H1; tauto|]. destruct r as [|z r]; simpl in *; [tauto|].
    destruct H1 as [-> H1], H2 as [-> H2]. eauto.
  Qed.
  (** two prefixes of one path are comparable *)
  Lemma is_prefix_both p q r : is_prefix p r -> is_prefix q r -> is_prefix p q \/ is_prefix q p.
  Proof.
    revert q r; induction p as [|x p IH]; intros q r H1 H2; [left; simpl; auto|].
    destruct q as [|y q]; [right; simpl; auto|]. destruct r as [|z r]; simpl in *; [tauto|].
    destruct H1 as [-> H1], H2 as [-> H2]. destruct (IH _ _ H1 H2); tauto.
  Qed.
  Lemma is_prefix_antisym p q : is_prefix p q -> is_prefix q p -> p = q.
  Proof.
    revert q; induction p as [|x p IH]; intros [|y q] H1 H2; simpl in *; try tauto.
    destruct H1 as [-> H1], H2 as [_ H2]. f_equal. auto.
  Qed.

  Lemma get_set_prefix v ks x v' p :
    set_nested v ks x = Ok v' -> is_prefix p ks -> p <> ks -> exists d, get_nested v' p = Ok (VDict d).
  Proof.
    revert v v' p; induction ks as [|k r IH]; intros v v' p H Hp Hne; simpl in H; [congruence|].
    destruct v as [| | | | | |d]; try congruence.
    destruct p as [|kp p].
    - destruct r as [|k2 r]; [inversion H; simpl; eauto|].
      destruct (set_nested _ (k2 :: r) x) as [sub'|] eqn:E; simpl in H; [|congruence].
      inversion H; simpl; eauto.
    - simpl in Hp. destruct Hp as [-> Hp]. destruct r as [|k2 r].
      + destruct p; [congruence|]. simpl in Hp. tauto.
      + destruct (set_nested _ (k2 :: r) x) as [sub'|] eqn:E; simpl in H; [|congruence].
        inversion H; subst. cbn [get_nested subscript]. rewrite dget_dset_same. cbn [bind].
        eapply IH; eauto. congruence.
  Qed.

  Lemma parsed_inv_step user L q n st st' :
    (forall q' n', In (q', n') L -> incomparable q' q) -> q <> [] ->
    parsed_inv user L st -> parse_leaf o user st (q, n) = Ok st' -> parsed_inv user (L ++ [(q, n)]) st'.
  Proof.
    intros Hinc Hq [I1 [I2 I3]] H. unfold parse_leaf in H. destruct st as [parsed tree].
    destruct (create_parser n) as [p|] eqn:Ep; cbn [bind] in H; [|congruence].
    destruct (ptree_set tree q p) as [tree'|] eqn:Et; cbn [bind] in H; [|congruence].
    destruct (parser_get o p user q) as [v|] eqn:Ev; cbn [bind] in H; [|congruence].
    destruct (set_nested parsed q v) as [parsed'|] eqn:Es; cbn [bind] in H; [|congruence].
    inversion H; subst st'; clear H. cbn [fst snd] in *. split; [|split].
    - intros q' n' Hin. apply in_app_or in Hin. destruct Hin as [Hin|[Hin|[]]].
      + destruct (I1 _ _ Hin) as [p' [v' [H1 [H2 [H3 H4]]]]]. exists p', v'. repeat split; auto.
        * rewrite (get_set_other _ _ _ _ _ Es); eauto.
        * cbn [snd] in *. rewrite (ptree_get_set_other _ _ _ _ _ Et); eauto.
      + inversion Hin; subst. exists p, v. repeat split; auto.
        * eapply get_set_same; eauto.
        * eapply ptree_get_set_same; eauto.
    - intros p' Hp' Hall.
      assert (Hpq : incomparable p' q) by (eapply Hall, in_or_app; right; left; reflexivity).
      destruct (I2 p' Hp') as [H1 H2]; [intros; eapply Hall, in_or_app; left; eassumption|].
      cbn [fst snd] in *.
      rewrite (get_set_other _ _ _ _ _ Es), (ptree_get_set_other _ _ _ _ _ Et); auto.
    - intros p' Hp'.
      destruct (is_prefix_dec p' q) as [Hpre|Hnpre].
      + assert (p' <> q).
        { intros ->. destruct Hp' as [->|[q' [n' [Hin [Hpq Hne]]]]]; [congruence|].
          apply in_app_or in Hin. destruct Hin as [Hin|[Hin|[]]].
          - apply Hinc in Hin. destruct Hin. tauto.
          - inversion Hin; subst; tauto. }
        split; [eapply get_set_prefix; eauto | eapply ptree_get_set_prefix; eauto].
      + destruct Hp' as [->|[q' [n' [Hin [Hpq Hne]]]]]; [simpl in Hnpre; tauto|].
        apply in_app_or in Hin. destruct Hin as [Hin|[Hin|[]]]; [|inversion Hin; subst; tauto].
        assert (Hi : incomparable p' q).
        { split; [assumption|]. intros Hqp. apply (proj2 (Hinc _ _ Hin)).
          eapply is_prefix_trans; eauto. }
        cbn [fst snd] in *.
        rewrite (get_set_other _ _ _ _ _ Es), (ptree_get_set_other _ _ _ _ _ Et) by assumption.
        apply I3. right; eauto.
  Qed.

  Lemma parse_fold_inv user L2 : forall L1 st st',
    ForallOrdPairs leaf_inc (L1 ++ L2) -> Forall (fun l => fst l <> []) (L1 ++ L2) ->
    parsed_inv user L1 st -> fold_result (parse_leaf o user) L2 st = Ok st' ->
    parsed_inv user (L1 ++ L2) st'.
  Proof.
    induction L2 as [|[q n] L2 IH]; intros L1 st st' Hop Hne Hi H; cbn [fold_result] in H.
    - rewrite app_nil_r. inversion H; subst; assumption.
    - destruct (parse_leaf o user st (q, n)) as [st1|] eqn:E; cbn [bind] in H; [|congruence].
      replace (L1 ++ (q, n) :: L2) with ((L1 ++ [(q, n)]) ++ L2) in * by (rewrite <- app_assoc; reflexivity).
      eapply IH; eauto. eapply parsed_inv_step; eauto.
      + intros q' n' Hin.
        assert (G : forall l1 l2 : list (list key * pyval), ForallOrdPairs leaf_inc (l1 ++ l2) ->
                    forall a b, In a l1 -> In b l2 -> leaf_inc a b).
        { induction l1 as [|x l1 IHl]; simpl; intros l2 HF a b Ha Hb; [tauto|]. inversion HF; subst.
          destruct Ha as [<-|Ha]; [|eauto]. rewrite Forall_forall in H2. apply H2, in_or_app; auto. }
        rewrite <- app_assoc in Hop. apply (G _ _ Hop (q', n') (q, n)); [assumption|left; reflexivity].
      + rewrite Forall_app in Hne. destruct Hne as [Hne _]. rewrite Forall_app in Hne.
        destruct Hne as [_ Hne]. inversion Hne; subst; assumption.
  Qed.

  Lemma parse_params_inv template user st :
    wfb template = true -> parse_params o template user = Ok st ->
    parsed_inv user (leaves schema_leaf [] template) st.
  Proof.
    intros Hwf H. unfold parse_params in H. destruct template; try congruence.
    set (L := leaves schema_leaf [] (VDict d)) in *.
    change L with ([] ++ L).
    eapply parse_fold_inv; [| |apply parsed_inv_nil|exact H].
    - apply leaves_incomparable. assumption.
    - apply Forall_forall. intros [q n] Hin.
      destruct (leaves_prefix _ _ _ _ _ Hin) as [k [r Hq]]. simpl in Hq |- *. subst. discriminate.
  Qed.

  (** ** check_obsolete_params *)
  (** the paths at which flatten stores something *)
  Section flat.
    Variable crit : list key -> pyval -> result bool.

    Definition flat_go (curr : list key) :=
      (fix go (l : pydict) (flat : list (key * pyval)) : result (list (key * pyval)) :=
         match l with
         | [] => Ok flat
         | (k, node) :: r =>
             let keys := curr ++ [k] in
             do leaf <- crit keys node;
             do flat' <-
               (if leaf : bool then do s <- join_keys keys; Ok (dset flat (KStr s) node)
                else flatten_aux crit keys flat node);
             go r flat'
         end).
    Lemma flatten_aux_dict curr flat d : flatten_aux crit curr flat (VDict d) = flat_go curr d flat.
    Proof. reflexivity. Qed.

    (** [flat_at curr v q n]: flatten, entered with key prefix [curr] on [v], stores [n] at [q]. *)
    Inductive flat_at : list key -> pyval -> list key -> pyval -> Prop :=
    | fa_leaf curr d k n : In (k, n) d -> crit (curr ++ [k]) n = Ok true -> flat_at curr (VDict d) (curr ++ [k]) n
    | fa_node curr d k n q m : In (k, n) d -> crit (curr ++ [k]) n = Ok false ->
        flat_at (curr ++ [k]) n q m -> flat_at curr (VDict d) q m.

    Lemma flatten_keys v : forall curr flat fl, flatten_aux crit curr flat v = Ok fl ->
      forall k, dmem fl k = true <->
        dmem flat k = true \/ exists q n s, flat_at curr v q n /\ join_keys q = Ok s /\ k = KStr s.
    Proof.
      induction v using pyval_ind'; intros curr flat fl Hf; try (simpl in Hf; congruence).
      rewrite flatten_aux_dict in Hf.
      assert (G : forall l flat fl, incl l d -> flat_go curr l flat = Ok fl -> forall k,
        dmem fl k = true <-> dmem flat k = true \/
          exists q n s, flat_at curr (VDict l) q n /\ join_keys q = Ok s /\ k = KStr s).
      { clear Hf flat fl. induction l as [|[k0 n0] l IHl]; intros flat fl Hincl Hf k; cbn [flat_go] in Hf.
        - inversion Hf; subst. split; [auto|]. intros [Hm|[q [n [s [Hfa _]]]]]; [assumption|].
          inversion Hfa; subst; simpl in *; tauto.
        - fold (flat_go curr) in Hf.
          destruct (crit (curr ++ [k0]) n0) as [leaf|] eqn:Ec; cbn [bind] in Hf; [|congruence].
          assert (Hincl' : incl l d) by (intros x Hx; apply Hincl; right; assumption).
          assert (Hn0 : In (k0, n0) d) by (apply Hincl; left; reflexivity).
          rewrite Forall_forall in H. specialize (H _ Hn0). simpl in H.
          destruct leaf.
          + destruct (join_keys (curr ++ [k0])) as [s0|] eqn:Ej; cbn [bind] in Hf; [|congruence].
            rewrite (IHl _ _ Hincl' Hf k), dmem_dset. split.
            * intros [[Hk|Hm]|[q [n [s [Hfa [Hj ->]]]]]]; auto.
              -- right. exists (curr ++ [k0]), n0, s0. repeat split; auto. apply fa_leaf; simpl; auto.
              -- right. exists q, n, s. repeat split; auto.
                 inversion Hfa; subst; [eapply fa_leaf | eapply fa_node]; simpl; eauto.
            * intros [Hm|[q [n [s [Hfa [Hj ->]]]]]]; auto.
              inversion Hfa as [? ? ? ? Hin Hc|? ? ? ? ? ? Hin Hc Hrec]; subst.
              -- destruct Hin as [Hin|Hin].
                 ++ inversion Hin; subst. left; left. congruence.
                 ++ right. eexists _, _, _. split; [eapply fa_leaf; eauto|split; [eassumption|reflexivity]].
              -- destruct Hin as [Hin|Hin].
                 ++ inversion Hin; subst. congruence.
                 ++ right. eexists _, _, _. split; [eapply fa_node; eauto|split; [eassumption|reflexivity]].
          + destruct (flatten_aux crit (curr ++ [k0]) flat n0) as [flat'|] eqn:Ef; cbn [bind] in Hf; [|congruence].
            rewrite (IHl _ _ Hincl' Hf k), (H _ _ _ Ef k). split.
            * intros [[Hm|[q [n [s [Hfa [Hj ->]]]]]]|[q [n [s [Hfa [Hj ->]]]]]]; auto.
              -- right. exists q, n, s. repeat split; auto. eapply fa_node; simpl; eauto.
              -- right. exists q, n, s. repeat split; auto.
                 inversion Hfa; subst; [eapply fa_leaf | eapply fa_node]; simpl; eauto.
            * intros [Hm|[q [n [s [Hfa [Hj ->]]]]]]; auto.
              inversion Hfa as [? ? ? ? Hin Hc|? ? ? ? ? ? Hin Hc Hrec]; subst.
              -- destruct Hin as [Hin|Hin].
                 ++ inversion Hin; subst. congruence.
                 ++ right. eexists _, _, _. split; [eapply fa_leaf; eauto|split; [eassumption|reflexivity]].
              -- destruct Hin as [Hin|Hin].
                 ++ inversion Hin; subst. left; right. eauto 7.
                 ++ right. eexists _, _, _. split; [eapply fa_node; eauto|split; [eassumption|reflexivity]]. }
      apply (G d flat fl (incl_refl _) Hf).
    Qed.

    (** errors: when flatten succeeds, the criterion was defined at every visited node and every
        stored path is a string path *)
    Lemma flatten_crit_ok v : forall curr flat fl, flatten_aux crit curr flat v = Ok fl ->
      exists d, v = VDict d /\ forall k n, In (k, n) d ->
        (crit (curr ++ [k]) n = Ok true /\ exists s, join_keys (curr ++ [k]) = Ok s) \/
        (crit (curr ++ [k]) n = Ok false /\ exists flat1 fl1, flatten_aux crit (curr ++ [k]) flat1 n = Ok fl1).
    Proof.
      intros curr flat fl Hf. destruct v as [| | | | | |d]; try (simpl in Hf; congruence).
      exists d. split; [reflexivity|]. rewrite flatten_aux_dict in Hf. revert flat fl Hf.
      induction d as [|[k0 n0] d IH]; intros flat fl Hf k n Hin; [inversion Hin|].
      cbn [flat_go] in Hf. fold (flat_go curr) in Hf.
      destruct (crit (curr ++ [k0]) n0) as [leaf|] eqn:Ec; cbn [bind] in Hf; [|congruence].
      destruct leaf.
      - destruct (join_keys (curr ++ [k0])) as [s0|] eqn:Ej; cbn [bind] in Hf; [|congruence].
        destruct Hin as [Hin|Hin]; [inversion Hin; subst; left; eauto | eauto].
      - destruct (flatten_aux crit (curr ++ [k0]) flat n0) as [flat'|] eqn:Ef; cbn [bind] in Hf; [|congruence].
        destruct Hin as [Hin|Hin]; [inversion Hin; subst; right; eauto | eauto].
    Qed.
  End flat.
End config_facts.
