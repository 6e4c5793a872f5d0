(** Facts about dictionaries, nested access and flattening (model: NestedDict.v). *)
From Coq Require Import Lia.
From Verif Require Import PyBase NestedDict.

(** ** Keys and dictionaries *)
Lemma key_eqb_eq a b : key_eqb a b = true <-> a = b.
Proof.
  destruct a as [s|x], b as [t|y]; simpl; try (split; congruence).
  - rewrite String.eqb_eq. split; congruence.
  - rewrite Z.eqb_eq. split; congruence.
Qed.
Lemma key_eqb_refl a : key_eqb a a = true.
Proof. apply key_eqb_eq; reflexivity. Qed.
Lemma key_eqb_neq a b : key_eqb a b = false <-> a <> b.
Proof. rewrite <- key_eqb_eq. destruct (key_eqb a b); split; congruence. Qed.
Lemma key_dec (a b : key) : {a = b} + {a <> b}.
Proof. destruct (key_eqb a b) eqn:E; [left; apply key_eqb_eq, E | right; apply key_eqb_neq, E]. Qed.

Lemma dget_dset_same {A} (d : list (key * A)) k v : dget (dset d k v) k = Some v.
Proof.
  induction d as [|[k' v'] r IH]; simpl.
  - rewrite key_eqb_refl. reflexivity.
  - destruct (key_eqb k' k) eqn:E; simpl; rewrite E; auto.
Qed.
Lemma dget_dset_other {A} (d : list (key * A)) k k2 v : k <> k2 -> dget (dset d k v) k2 = dget d k2.
Proof.
  intros Hne. induction d as [|[k' v'] r IH]; simpl.
  - apply key_eqb_neq in Hne. rewrite Hne. reflexivity.
  - destruct (key_eqb k' k) eqn:E; simpl.
    + apply key_eqb_eq in E. subst k'. apply key_eqb_neq in Hne. rewrite Hne. reflexivity.
    + destruct (key_eqb k' k2); auto.
Qed.
Lemma dset_get_id {A} (d : list (key * A)) k v : dget d k = Some v -> dset d k v = d.
Proof.
  induction d as [|[k' v'] r IH]; simpl; [discriminate|].
  destruct (key_eqb k' k) eqn:E; intros H; [congruence|]. rewrite IH; auto.
Qed.
Lemma dset_dset {A} (d : list (key * A)) k v w : dset (dset d k v) k w = dset d k w.
Proof.
  induction d as [|[k' v'] r IH]; simpl.
  - rewrite key_eqb_refl. reflexivity.
  - destruct (key_eqb k' k) eqn:E; simpl; rewrite E; [reflexivity | rewrite IH; reflexivity].
Qed.
Lemma dget_In {A} (d : list (key * A)) k v : dget d k = Some v -> In (k, v) d.
Proof.
  induction d as [|[k' v'] r IH]; simpl; [discriminate|].
  destruct (key_eqb k' k) eqn:E; intros H.
  - apply key_eqb_eq in E. left; congruence.
  - right; auto.
Qed.
Lemma In_dget {A} (d : list (key * A)) k v : NoDup (map fst d) -> In (k, v) d -> dget d k = Some v.
Proof.
  induction d as [|[k' v'] r IH]; simpl; [tauto|]. intros Hnd [H|H]; inversion Hnd; subst.
  - inversion H; subst. rewrite key_eqb_refl. reflexivity.
  - destruct (key_eqb k' k) eqn:E; [|auto]. apply key_eqb_eq in E. subst.
    exfalso. apply H2. change k with (fst (k, v)). apply in_map, H.
Qed.
Lemma dget_None_notin {A} (d : list (key * A)) k : dget d k = None <-> ~ In k (map fst d).
Proof.
  induction d as [|[k' v'] r IH]; simpl; [tauto|].
  destruct (key_eqb k' k) eqn:E.
  - apply key_eqb_eq in E. subst. split; [discriminate|]. intros H; exfalso; apply H; auto.
  - apply key_eqb_neq in E. rewrite IH. tauto.
Qed.
Lemma dmem_dset {A} (d : list (key * A)) k v k2 :
  dmem (dset d k v) k2 = true <-> k = k2 \/ dmem d k2 = true.
Proof.
  unfold dmem. destruct (key_dec k k2) as [->|Hne].
  - rewrite dget_dset_same. tauto.
  - rewrite dget_dset_other by assumption. destruct (dget d k2); intuition congruence.
Qed.
Lemma dmem_In {A} (d : list (key * A)) k : dmem d k = true <-> In k (map fst d).
Proof.
  unfold dmem. destruct (dget d k) eqn:E.
  - split; [intros _|auto]. apply dget_In in E. change k with (fst (k, a)). apply in_map, E.
  - split; [discriminate|]. intros H. apply dget_None_notin in E. tauto.
Qed.
Lemma dset_keys_NoDup {A} (d : list (key * A)) k v : NoDup (map fst d) -> NoDup (map fst (dset d k v)).
Proof.
  induction d as [|[k' v'] r IH]; simpl; intros H.
  - constructor; [simpl; tauto | constructor].
  - inversion H; subst. destruct (key_eqb k' k) eqn:E; simpl; [assumption|].
    constructor; [|auto]. intros Hin. apply dmem_In, dmem_dset in Hin. destruct Hin as [->|Hin].
    + rewrite key_eqb_refl in E. discriminate.
    + apply dmem_In in Hin. tauto.
Qed.

(** ** Prefixes of paths *)
Fixpoint is_prefix (p q : list key) : Prop :=
  match p, q with
  | [], _ => True
  | x :: p', y :: q' => x = y /\ is_prefix p' q'
  | _ :: _, [] => False
  end.
Definition incomparable (p q : list key) : Prop := ~ is_prefix p q /\ ~ is_prefix q p.

Lemma is_prefix_refl p : is_prefix p p.
Proof. induction p; simpl; auto. Qed.
Lemma is_prefix_app p q : is_prefix p (p ++ q).
Proof. induction p; simpl; auto. Qed.
Lemma is_prefix_ex p q : is_prefix p q -> exists r, q = p ++ r.
Proof.
  revert q; induction p as [|x p IH]; simpl; intros q H; [exists q; auto|].
  destruct q as [|y q]; [tauto|]. destruct H as [-> H]. destruct (IH _ H) as [r ->]. exists r; auto.
Qed.
Lemma incomparable_sym p q : incomparable p q -> incomparable q p.
Proof. unfold incomparable; tauto. Qed.
Lemma incomparable_cons x p q : incomparable p q -> incomparable (x :: p) (x :: q).
Proof. unfold incomparable; simpl; tauto. Qed.
Lemma incomparable_cons_inv x p q : incomparable (x :: p) (x :: q) -> incomparable p q.
Proof. unfold incomparable; simpl; tauto. Qed.
Lemma incomparable_app r p q : incomparable p q -> incomparable (r ++ p) (r ++ q).
Proof. induction r; simpl; auto using incomparable_cons. Qed.
Lemma incomparable_neq x y p q : x <> y -> incomparable (x :: p) (y :: q).
Proof. unfold incomparable; simpl; intuition congruence. Qed.
Lemma is_prefix_dec p q : {is_prefix p q} + {~ is_prefix p q}.
Proof.
  revert q; induction p as [|x p IH]; simpl; intros q; [left; auto|].
  destruct q as [|y q]; [right; auto|].
  destruct (key_dec x y); [|right; tauto]. destruct (IH q); [left|right]; tauto.
Qed.

(** ** get_nested / set_nested laws *)
Lemma get_nested_app v p q : get_nested v (p ++ q) = (do v' <- get_nested v p; get_nested v' q).
Proof.
  revert v; induction p as [|k p IH]; intros v; simpl; [reflexivity|].
  destruct (subscript v k); simpl; auto.
Qed.

Lemma get_set_same v ks x v' : set_nested v ks x = Ok v' -> get_nested v' ks = Ok x.
Proof.
  revert v v'; induction ks as [|k r IH]; intros v v' H; simpl in H; [discriminate|].
  destruct v as [| | | | | |d]; try discriminate.
  destruct r as [|k2 r].
  - inversion H; subst. simpl. rewrite dget_dset_same. reflexivity.
  - destruct (set_nested _ (k2 :: r) x) as [sub'|] eqn:E; simpl in H; [|discriminate].
    inversion H; subst. cbn [get_nested subscript]. rewrite dget_dset_same. cbn [bind].
    eapply IH. exact E.
Qed.

Lemma get_empty p : p <> [] -> get_nested (VDict []) p = Err KeyError.
Proof. destruct p; [tauto|]. reflexivity. Qed.

Lemma get_set_other v ks x v' p :
  set_nested v ks x = Ok v' -> incomparable p ks -> get_nested v' p = get_nested v p.
Proof.
  revert v v' p; induction ks as [|k r IH]; intros v v' p H Hinc; simpl in H; [discriminate|].
  destruct v as [| | | | | |d]; try discriminate.
  destruct p as [|kp p]; [exfalso; apply (proj1 Hinc); simpl; auto|].
  destruct (key_dec k kp) as [->|Hne].
  - destruct r as [|k2 r].
    + exfalso. apply (proj2 Hinc). simpl. auto.
    + destruct (set_nested _ (k2 :: r) x) as [sub'|] eqn:E; simpl in H; [|discriminate].
      inversion H; subst. cbn [get_nested subscript]. rewrite dget_dset_same. cbn [bind].
      apply incomparable_cons_inv in Hinc.
      rewrite (IH _ _ _ E Hinc). destruct (dget d kp) as [s|]; cbn [bind]; [reflexivity|].
      apply get_empty. intros ->. apply (proj1 Hinc). simpl. auto.
  - assert (Hv' : exists s, v' = VDict (dset d k s)).
    { destruct r as [|k2 r]; [inversion H; eauto|].
      destruct (set_nested _ (k2 :: r) x) as [sub'|] eqn:E; simpl in H; [|discriminate].
      inversion H; eauto. }
    destruct Hv' as [s ->]. cbn [get_nested subscript]. rewrite dget_dset_other by assumption.
    reflexivity.
Qed.

(** Ancestors of a written path stay dictionaries: only the entry on the path changes. *)
Lemma set_nested_dict v ks x v' : set_nested v ks x = Ok v' -> exists d, v' = VDict d.
Proof.
  destruct ks as [|k r]; simpl; [discriminate|]. destruct v as [| | | | | |d]; try discriminate.
  destruct r as [|k2 r]; intros H.
  - inversion H; eauto.
  - destruct (set_nested _ (k2 :: r) x) as [sub'|] eqn:E; simpl in H; [|discriminate].
    inversion H; eauto.
Qed.

Definition str_path (ks : list key) : Prop := Forall (fun k => exists s, k = KStr s) ks.

Lemma set_get_id v ks x : ks <> [] -> str_path ks -> get_nested v ks = Ok x -> set_nested v ks x = Ok v.
Proof.
  revert v; induction ks as [|k r IH]; intros v Hne Hs H; [tauto|].
  inversion Hs as [|? ? [s ->] Hs']; subst. simpl in H.
  destruct v as [| | | | | |d]; try discriminate.
  cbn [subscript] in H. destruct (dget d (KStr s)) as [w|] eqn:E; [|discriminate]. cbn [bind] in H.
  cbn [set_nested]. destruct r as [|k2 r].
  - simpl in H. inversion H; subst. rewrite dset_get_id by assumption. reflexivity.
  - rewrite E. rewrite (IH w); [|discriminate|assumption|assumption].
    simpl. rewrite dset_get_id by assumption. reflexivity.
Qed.

Lemma set_set v ks x y v' : set_nested v ks x = Ok v' -> set_nested v' ks y = set_nested v ks y.
Proof.
  revert v v'; induction ks as [|k r IH]; intros v v' H; [discriminate|].
  simpl in H. destruct v as [| | | | | |d]; try discriminate.
  destruct r as [|k2 r].
  - inversion H; subst. simpl. rewrite dset_dset. reflexivity.
  - destruct (set_nested _ (k2 :: r) x) as [sub'|] eqn:E; simpl in H; [|discriminate].
    inversion H; subst. cbn [set_nested]. rewrite dget_dset_same.
    pose proof (IH _ _ E) as IHe. cbn [set_nested] in IHe. rewrite IHe.
    match goal with |- bind ?a _ = bind ?b _ => destruct b; simpl; [|reflexivity] end.
    rewrite dset_dset. reflexivity.
Qed.

(** set_nested succeeds whenever the part of the path that exists consists of dictionaries. *)
Lemma set_nested_ok v ks x :
  ks <> [] ->
  (forall p w, is_prefix p ks -> p <> ks -> get_nested v p = Ok w -> is_dict w = true) ->
  exists v', set_nested v ks x = Ok v'.
Proof.
  revert v; induction ks as [|k r IH]; intros v Hne H; [tauto|].
  assert (Hv : is_dict v = true) by (apply (H [] v); simpl; auto; discriminate).
  destruct v as [| | | | | |d]; try discriminate.
  destruct r as [|k2 r]; [simpl; eauto|].
  assert (Hsub : exists v', set_nested match dget d k with Some s => s | None => VDict [] end (k2 :: r) x
                            = Ok v').
  { apply IH; [discriminate|]. intros p w Hp Hpn Hg. destruct (dget d k) as [s|] eqn:E.
    - apply (H (k :: p) w); [simpl; auto | congruence |]. cbn [get_nested subscript]. rewrite E. exact Hg.
    - destruct p as [|kp p]; simpl in Hg; [inversion Hg; reflexivity | discriminate]. }
  destruct Hsub as [v' Hv']. cbn [set_nested]. cbn [set_nested] in Hv'. rewrite Hv'. simpl. eauto.
Qed.

(** ** Joining key paths *)
(** A key is [free] when it does not contain " -"; joined names of free paths are unambiguous. *)
Definition free (k : key) : Prop :=
  match k with KStr s => str_contains " -" s = false | KInt _ => False end.

Lemma append_String c a b : (String c a ++ b)%string = String c (a ++ b)%string.
Proof. reflexivity. Qed.
Lemma append_assoc_s a b c : ((a ++ b) ++ c)%string = (a ++ (b ++ c))%string.
Proof. induction a as [|x a IH]; simpl; [reflexivity|]. rewrite IH. reflexivity. Qed.

Definition sfree (s : string) : Prop := str_contains " -" s = false.

Lemma sfree_tail c s : sfree (String c s) -> sfree s.
Proof. unfold sfree. simpl. intros H. apply orb_false_elim in H. tauto. Qed.

Lemma sfree_space s : sfree (String " " (String "-" s)) -> False.
Proof. unfold sfree. simpl. destruct s; simpl; intros H; discriminate H. Qed.

Lemma sep_split k k' r r' : sfree k -> sfree k' ->
  (k ++ " - " ++ r = k' ++ " - " ++ r')%string -> k = k' /\ r = r'.
Proof.
  revert k'. induction k as [|c k IH]; intros k' Hk Hk' H.
  - destruct k' as [|c' k']; [simpl in H; inversion H; auto|].
    simpl in H. inversion H; subst. destruct k' as [|c'' k'']; simpl in H2; inversion H2; subst.
    exfalso. eapply sfree_space; eassumption.
  - destruct k' as [|c' k'].
    + simpl in H. inversion H; subst. destruct k as [|c'' k'']; simpl in H2; inversion H2; subst.
      exfalso. eapply sfree_space; eassumption.
    + simpl in H. inversion H; subst. destruct (IH k') as [-> ->]; eauto using sfree_tail.
Qed.

Lemma sep_nosplit k k' r : sfree k -> (k = k' ++ " - " ++ r)%string -> False.
Proof.
  revert k'. induction k as [|c k IH]; intros k' Hk H.
  - destruct k'; discriminate.
  - destruct k' as [|c' k'].
    + simpl in H. inversion H; subst. eapply sfree_space; eassumption.
    + simpl in H. inversion H; subst. eapply IH; eauto using sfree_tail.
Qed.

Lemma str_join_inj l l' : l <> [] -> l' <> [] -> Forall sfree l -> Forall sfree l' ->
  str_join " - " l = str_join " - " l' -> l = l'.
Proof.
  revert l'. induction l as [|x l IH]; intros l' Hn Hn' Hf Hf' H; [tauto|].
  destruct l' as [|y l']; [tauto|]. inversion Hf; inversion Hf'; subst.
  destruct l as [|x2 l], l' as [|y2 l']; cbn [str_join] in H.
  - congruence.
  - exfalso. eapply sep_nosplit; [|exact H]. assumption.
  - exfalso. symmetry in H. eapply sep_nosplit; [|exact H]. assumption.
  - apply sep_split in H; [|assumption|assumption]. destruct H as [-> H]. f_equal.
    apply IH; auto; discriminate.
Qed.

Lemma key_strings_map l : key_strings (map KStr l) = Ok l.
Proof. induction l as [|s l IH]; simpl; [reflexivity|]. rewrite IH. reflexivity. Qed.
Lemma key_strings_ok ks l : key_strings ks = Ok l <-> ks = map KStr l.
Proof.
  split; [|intros ->; apply key_strings_map].
  revert l; induction ks as [|k ks IH]; intros l H; simpl in H.
  - inversion H. reflexivity.
  - destruct k as [s|z]; [|congruence].
    destruct (key_strings ks) as [l'|] eqn:E; simpl in H; [|congruence].
    inversion H; subst. simpl. f_equal. apply IH. reflexivity.
Qed.

Lemma join_keys_ok ks s : join_keys ks = Ok s -> exists l, ks = map KStr l /\ s = str_join " - " l.
Proof.
  unfold join_keys. destruct (key_strings ks) as [l|] eqn:E; simpl; [|discriminate].
  apply key_strings_ok in E. intros H; inversion H; eauto.
Qed.
Lemma join_keys_map l : join_keys (map KStr l) = Ok (str_join " - " l).
Proof. unfold join_keys. rewrite (proj2 (key_strings_ok (map KStr l) l) eq_refl). reflexivity. Qed.

Lemma join_keys_inj p q s : p <> [] -> q <> [] -> Forall free p -> Forall free q ->
  join_keys p = Ok s -> join_keys q = Ok s -> p = q.
Proof.
  intros Hp Hq Fp Fq H1 H2. apply join_keys_ok in H1. apply join_keys_ok in H2.
  destruct H1 as [l [-> ->]], H2 as [l' [-> H2]]. f_equal.
  apply str_join_inj; auto.
  - intros ->; auto.
  - intros ->; auto.
  - clear -Fp. rewrite Forall_map in Fp. exact Fp.
  - clear -Fq. rewrite Forall_map in Fq. exact Fq.
Qed.
