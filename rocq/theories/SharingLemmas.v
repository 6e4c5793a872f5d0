(** C62: what MIMOSA(params) does to the caller's dictionary. *)
From Verif Require Import PyBase NestedDict NestedDictFacts Parsers Config ConfigDefault ConfigFacts ConfigFacts2 ConfigFacts3
  ConfigSpec ConfigBridge RefFacts ConfigLemmas InstFacts Sharing SharingSpec.
From Coq Require Import Lia.
Import ListNotations.
Open Scope list_scope.

Section oval_ind'.
  Variable P : oval -> Prop.
  Hypothesis HI : forall v, P (OImm v).
  Hypothesis HU : forall p, P (OUser p).
  Hypothesis HD : forall d, Forall (fun kx => P (snd kx)) d -> P (ODict d).
  Hypothesis HL : forall l, Forall P l -> P (OList l).
  Fixpoint oval_ind' (x : oval) : P x :=
    match x with
    | OImm v => HI v
    | OUser p => HU p
    | ODict d => HD d ((fix go (l : list (key * oval)) : Forall (fun kx => P (snd kx)) l :=
                          match l with [] => Forall_nil _ | kx :: r => Forall_cons kx (oval_ind' (snd kx)) (go r) end) d)
    | OList l => HL l ((fix go (l : list oval) : Forall P l :=
                          match l with [] => Forall_nil _ | x :: r => Forall_cons x (oval_ind' x) (go r) end) l)
    end.
End oval_ind'.

(** the caller's objects in an object all satisfy [Q] *)
Inductive wo (Q : list key -> Prop) : oval -> Prop :=
| wo_imm v : is_dict v = false -> wo Q (OImm v)
| wo_user p : Q p -> wo Q (OUser p)
| wo_dict d : Forall (fun kx => wo Q (snd kx)) d -> wo Q (ODict d)
| wo_list l : Forall (wo Q) l -> wo Q (OList l).
Lemma wo_impl (Q Q' : list key -> Prop) x : (forall p, Q p -> Q' p) -> wo Q x -> wo Q' x.
Proof.
  intros HQ. induction x using oval_ind'; intros W; inversion W; subst; constructor; auto.
  - rewrite Forall_forall in *. auto.
  - rewrite Forall_forall in *. auto.
Qed.

Definition readrel (user : pyval) (d : list (key * oval)) (d' : pydict) : Prop :=
  Forall2 (fun a b => fst a = fst b /\ oread user (snd a) = Ok (snd b)) d d'.
Definition rd (user : pyval) : list (key * oval) -> result pydict :=
  fix go (l : list (key * oval)) : result pydict :=
    match l with [] => Ok [] | (k, y) :: r => do v <- oread user y; do r' <- go r; Ok ((k, v) :: r') end.
Lemma oread_dict_eq user d : oread user (ODict d) = (do d' <- rd user d; Ok (VDict d')).
Proof. reflexivity. Qed.
Lemma rd_iff user d d' : rd user d = Ok d' <-> readrel user d d'.
Proof.
  unfold readrel. revert d'. induction d as [|[k y] d IH]; intros d'; cbn [rd].
  - split; [intros E; injection E as <-; constructor|intros H; inversion H; reflexivity].
  - split.
    + destruct (oread user y) as [v|] eqn:E; cbn [bind]; [|discriminate]. fold (rd user).
      destruct (rd user d) as [r'|] eqn:E2; cbn [bind]; [|discriminate]. intros H. injection H as <-.
      constructor; [split; [reflexivity|exact E]|]. apply IH. reflexivity.
    + intros H. inversion H as [|a b ? r' [H1 H2] H3]; subst. destruct b as [k' v]. cbn [fst snd] in *. subst k'.
      rewrite H2. cbn [bind]. fold (rd user). apply IH in H3. rewrite H3. reflexivity.
Qed.
Lemma oread_dict user d v : oread user (ODict d) = Ok v <-> exists d', v = VDict d' /\ readrel user d d'.
Proof.
  rewrite oread_dict_eq. destruct (rd user d) as [d'|e] eqn:E; cbn [bind].
  - apply rd_iff in E. split.
    + intros H. injection H as <-. eauto.
    + intros (d2 & -> & H). apply rd_iff in H. apply rd_iff in E. congruence.
  - split; [discriminate|]. intros (d2 & -> & H). apply rd_iff in H. congruence.
Qed.
Lemma oread_list user l v : oread user (OList l) = Ok v <-> exists l', v = VList l' /\ Forall2 (fun a b => oread user a = Ok b) l l'.
Proof.
  cbn [oread]. set (g := fix go (l : list oval) : result (list pyval) :=
    match l with [] => Ok [] | y :: r => do v <- oread user y; do r' <- go r; Ok (v :: r') end).
  assert (G : forall l', g l = Ok l' <-> Forall2 (fun a b => oread user a = Ok b) l l').
  { induction l as [|y l IH]; intros l'; cbn [g].
    - split; [intros E; injection E as <-; constructor|intros H; inversion H; reflexivity].
    - split.
      + destruct (oread user y) as [w|] eqn:E; cbn [bind]; [|discriminate]. fold g.
        destruct (g l) as [r'|] eqn:E2; cbn [bind]; [|discriminate]. intros H. injection H as <-.
        constructor; [exact E|]. apply IH. reflexivity.
      + intros H. inversion H as [|a b ? r' H2 H3]; subst. rewrite H2. cbn [bind]. fold g. apply IH in H3. rewrite H3. reflexivity. }
  destruct (g l) as [l'|e] eqn:E; cbn [bind].
  - split.
    + intros H. injection H as <-. exists l'. split; [reflexivity|]. apply G. reflexivity.
    + intros (d2 & -> & H). apply G in H. congruence.
  - split; [discriminate|]. intros (d2 & -> & H). apply G in H. congruence.
Qed.

(** the value only depends on the shared objects *)
Lemma oread_agree Q user user' x : wo Q x -> (forall p, Q p -> get_nested user' p = get_nested user p) ->
  forall v, oread user x = Ok v -> oread user' x = Ok v.
Proof.
  intros W A. induction x using oval_ind'; intros w E; inversion W; subst.
  - exact E.
  - cbn [oread] in *. rewrite A by assumption. exact E.
  - apply oread_dict in E as (d' & -> & R). apply oread_dict. exists d'. split; [reflexivity|].
    rewrite Forall_forall in H, H1. unfold readrel in *. clear W. induction R as [|a b d d' [R1 R2] R IH]; [constructor|].
    constructor.
    + split; [exact R1|]. apply H; [left; reflexivity|apply H1; left; reflexivity|exact R2].
    + apply IH; intros; [apply H|apply H1]; try (right; assumption); assumption.
  - apply oread_list in E as (l' & -> & R). apply oread_list. exists l'. split; [reflexivity|].
    rewrite Forall_forall in H, H1. clear W. induction R as [|a b d d' R2 R IH]; [constructor|].
    constructor.
    + apply H; [left; reflexivity|apply H1; left; reflexivity|exact R2].
    + apply IH; intros; [apply H|apply H1]; try (right; assumption); assumption.
Qed.

(** dictionaries of objects and of values *)
Lemma readrel_dset user d d' k x v : readrel user d d' -> oread user x = Ok v -> readrel user (dset d k x) (dset d' k v).
Proof.
  intros R E. unfold readrel in *. induction R as [|[k1 a] [k2 b] d d' [R1 R2] R IH]; cbn [dset].
  - constructor; [split; [reflexivity|exact E]|constructor].
  - cbn [fst snd] in *. subst k2. destruct (key_eqb k1 k).
    + constructor; [split; [reflexivity|exact E]|exact R].
    + constructor; [split; [reflexivity|exact R2]|exact IH].
Qed.
Lemma readrel_dget user d d' k : readrel user d d' ->
  match dget d k with Some x => exists v, dget d' k = Some v /\ oread user x = Ok v | None => dget d' k = None end.
Proof.
  intros R. unfold readrel in *. induction R as [|[k1 a] [k2 b] d d' [R1 R2] R IH]; cbn [dget]; [reflexivity|].
  cbn [fst snd] in *. subst k2. destruct (key_eqb k1 k); [eauto|exact IH].
Qed.
Lemma readrel_dmem user d d' k : readrel user d d' -> dmem d k = dmem d' k.
Proof.
  intros R. apply (readrel_dget _ _ _ k) in R. unfold dmem. destruct (dget d k); [destruct R as (v & -> & _); reflexivity|].
  rewrite R. reflexivity.
Qed.
Lemma wo_dset Q d k x : Forall (fun kx => wo Q (snd kx)) d -> wo Q x -> Forall (fun kx => wo Q (snd kx)) (dset d k x).
Proof.
  intros F W. rewrite Forall_forall in *. intros [k' y] I. apply In_dset in I as [[-> ->]|I]; [exact W|]. apply (F _ I).
Qed.

Lemma fresh_ok Q user v : oread user (fresh v) = Ok v /\ wo Q (fresh v).
Proof.
  induction v using pyval_ind'; try (split; [reflexivity|constructor; reflexivity]).
  - cbn [fresh]. set (g := fix go (l : list pyval) : list oval := match l with [] => [] | x :: r => fresh x :: go r end).
    assert (G : Forall2 (fun a b => oread user a = Ok b) (g l) l /\ Forall (wo Q) (g l)).
    { induction H as [|x l [H1 H2] F [IH1 IH2]]; cbn [g]; split; constructor; assumption. }
    split; [apply oread_list; exists l; split; [reflexivity|apply G]|constructor; apply G].
  - cbn [fresh]. set (g := fix go (l : pydict) : list (key * oval) := match l with [] => [] | (k, x) :: r => (k, fresh x) :: go r end).
    assert (G : readrel user (g d) d /\ Forall (fun kx => wo Q (snd kx)) (g d)).
    { induction H as [|[k x] l [H1 H2] F [IH1 IH2]]; cbn [g]; split; constructor; try assumption. split; [reflexivity|exact H1]. }
    split; [apply oread_dict; exists d; split; [reflexivity|apply G]|constructor; apply G].
Qed.

(** *** Declarations *)
Lemma type_lookup_In l s t : type_lookup l s = Some t -> In (s, t) l.
Proof.
  induction l as [|[n u] l IH]; cbn [type_lookup]; [discriminate|]. destruct (String.eqb_spec n s) as [->|N].
  - intros E. injection E as ->. left. reflexivity.
  - intros E. right. apply IH, E.
Qed.
Lemma node_types node p : create_parser node = Ok p ->
  (dict_type node <-> p_type p = TDict \/ p_type p = TDatasource) /\ (list_type node <-> p_type p = TList).
Proof.
  intros H. destruct (create_parser_type _ _ H) as (d & tn & -> & Hd & Hl).
  unfold dict_type, list_type, has_type, entry. rewrite Hd. pose proof (type_lookup_In _ _ _ Hl) as I.
  clear H Hd. revert Hl I. generalize (p_type p). intros ty Hl I.
  split; split.
  - intros [E|E]; injection E as ->; vm_compute in Hl; injection Hl as <-; auto.
  - intros [E|E]; rewrite E in I; cbn [In parser_types] in I;
      repeat (destruct I as [I|I]; [try discriminate I; injection I as <-; auto|]); destruct I.
  - intros E; injection E as ->; vm_compute in Hl; injection Hl as <-; auto.
  - intros E; rewrite E in I; cbn [In parser_types] in I;
      repeat (destruct I as [I|I]; [try discriminate I; injection I as <-; auto|]); destruct I.
Qed.
Lemma create_parser_values node p : create_parser node = Ok p ->
  p_type p = TDict \/ p_type p = TDatasource \/ p_type p = TList ->
  match p_values p with Some q => exists vn, entry node "values" = Some vn /\ create_parser vn = Ok q
  | None => entry node "values" = None end.
Proof.
  intros H T. destruct node as [| | | | | |d]; try (simpl in H; congruence). unfold entry. cbn [create_parser] in H.
  destruct (dget d (KStr "type")) as [[| | | |tn| |]|]; try congruence.
  destruct (type_lookup parser_types tn) as [ty|]; [|congruence].
  set (find := fun name => (fix find (l : pydict) : result (option parser) :=
                   match l with
                   | [] => Ok None
                   | (k, v) :: r => if key_eqb k (KStr name) then do p <- create_parser v; Ok (Some p) else find r
                   end)) in H.
  assert (F : forall name l, find name l = match dget l (KStr name) with Some v => do p <- create_parser v; Ok (Some p) | None => Ok None end).
  { intros name l. induction l as [|[k v] l IH]; [reflexivity|]. cbn [find dget]. destruct (key_eqb k (KStr name)); [reflexivity|exact IH]. }
  assert (G : forall vp, find "values" d = Ok vp -> match vp with Some q => exists vn, dget d (KStr "values") = Some vn /\ create_parser vn = Ok q
      | None => dget d (KStr "values") = None end).
  { intros vp E. rewrite F in E. destruct (dget d (KStr "values")) as [vn|]; [|injection E as <-; reflexivity].
    destruct (create_parser vn) as [q|] eqn:E2; cbn [bind] in E; [|discriminate]. injection E as <-. eauto. }
  destruct ty;
    try (exfalso;
    repeat match type of H with
           | match ?m with _ => _ end = Ok _ => destruct m eqn:?; try congruence
           end; injection H as <-; cbn [p_type] in T; destruct T as [T|[T|T]]; discriminate T).
  all: match type of H with bind ?m _ = _ => destruct m as [vp|] eqn:E end; [|cbn [bind] in H; discriminate].
  all: cbn [bind] in H; specialize (G _ E).
  2-3: match type of H with bind ?m _ = _ => destruct m as [kp|] eqn:E' end; [|cbn [bind] in H; discriminate]; cbn [bind] in H.
  all: injection H as <-; cbn [p_values]; exact G.
Qed.

(** *** Parsing *)
Definition srcok (user : pyval) (src : option (list key)) (v : pyval) : Prop :=
  match src with Some p => get_nested user p = Ok v | None => True end.
(** the caller's objects below the one at [src] *)
Definition below (user : pyval) (src : option (list key)) (S : list key -> pyval -> Prop) (q : list key) : Prop :=
  exists base rest z, src = Some base /\ q = base ++ rest /\ S rest z /\ get_nested user q = Ok z.
(** what parsing with objects has to do with parsing values *)
Definition agrees (user : pyval) (Q : list key -> Prop) (ro : result oval) (r : result pyval) : Prop :=
  match ro with
  | Ok x => exists w, r = Ok w /\ oread user x = Ok w /\ wo Q x
  | Err e => r = Err e
  end.

Lemma same_object_ok user src v : srcok user src v ->
  agrees user (below user src (fun rest z => rest = [] /\ z = v /\ container v)) (Ok (same_object src v)) (Ok v).
Proof.
  intros S. exists v. split; [reflexivity|]. destruct src as [p|].
  - cbn [srcok] in S. destruct v; cbn [same_object]; try (split; [reflexivity|constructor; reflexivity]).
    + split; [exact S|]. constructor. exists p, [], (VList l). rewrite app_nil_r. repeat split; exact S.
    + split; [exact S|]. constructor. exists p, [], (VDict d). rewrite app_nil_r. repeat split; exact S.
  - apply fresh_ok.
Qed.

Definition shared_item_at (vn : option pyval) (x : pyval) (rest : list key) (z : pyval) : Prop :=
  match vn with Some n => shared_at n x rest z | None => rest = [] /\ z = x /\ container x end.

Lemma srcok_child user src d k y : wfb (VDict d) = true -> srcok user src (VDict d) -> In (k, y) d -> srcok user (child src k) y.
Proof.
  intros W S I. destruct src as [p|]; [|exact Logic.I]. cbn [srcok child] in *. rewrite get_nested_app, S. cbn [bind get_nested subscript].
  apply wfb_dict in W. rewrite (In_dget _ _ _ (proj1 W) I). reflexivity.
Qed.
Lemma srcok_index user src l i y : srcok user src (VList l) -> nth_error l i = Some y -> srcok user (child src (KInt (Z.of_nat i))) y.
Proof.
  intros S I. destruct src as [p|]; [|exact Logic.I]. cbn [srcok child] in *. rewrite get_nested_app, S. cbn [bind get_nested subscript].
  assert (i < List.length l)%nat by (apply nth_error_Some; congruence).
  destruct (Z.ltb_spec (Z.of_nat i) 0); [lia|]. rewrite Nat2Z.id, I. destruct (Z.ltb_spec (Z.of_nat i) 0); [lia|]. reflexivity.
Qed.

Section parse.
  Variable o : oracles.
  Variable user : pyval.

  Definition oentry (pk : key -> result pyval) (item : option (list key) -> pyval -> result oval) (src : option (list key))
    (acc : list (key * oval)) (kv : key * pyval) : result (list (key * oval)) :=
    do k' <- pk (fst kv); do kk <- key_of_val k'; do v' <- item (child src (fst kv)) (snd kv); Ok (dset acc kk v').

  Lemma oentries_ok pk item pitem src (Q : list key -> Prop) (d : pydict) :
    (forall k x, In (k, x) d -> agrees user Q (item (child src k) x) (pitem x)) ->
    forall oacc acc, readrel user oacc acc -> Forall (fun kx => wo Q (snd kx)) oacc ->
    match fold_result (oentry pk item src) d oacc with
    | Ok od => exists d', fold_result (parse_entry pk pitem) d acc = Ok d' /\ readrel user od d' /\ Forall (fun kx => wo Q (snd kx)) od
    | Err e => fold_result (parse_entry pk pitem) d acc = Err e
    end.
  Proof.
    induction d as [|[k x] d IH]; intros Hi oacc acc R F; cbn [fold_result]; [eauto|].
    unfold oentry at 1, parse_entry at 1. cbn [fst snd]. unfold parse_entry at 2. cbn [fst snd].
    destruct (pk k) as [k'|e]; cbn [bind]; [|reflexivity].
    destruct (key_of_val k') as [kk|e]; cbn [bind]; [|reflexivity].
    pose proof (Hi k x (or_introl eq_refl)) as A. unfold agrees in A.
    destruct (item (child src k) x) as [ov|e]; cbn [bind].
    - destruct A as (w & -> & A1 & A2). cbn [bind]. apply IH.
      + intros; apply Hi; right; assumption.
      + apply readrel_dset; assumption.
      + apply wo_dset; assumption.
    - rewrite A. reflexivity.
  Qed.

  Lemma oelements_ok item pitem src (Q : list key -> Prop) (L l : list pyval) : forall i,
    (forall j x, nth_error l j = Some x -> agrees user Q (item (child src (KInt (Z.of_nat (i + j)))) x) (pitem x)) ->
    match map_index (fun i x => item (child src (KInt (Z.of_nat i))) x) i l with
    | Ok ol => exists l', map_result pitem l = Ok l' /\ Forall2 (fun a b => oread user a = Ok b) ol l' /\ Forall (wo Q) ol
    | Err e => map_result pitem l = Err e
    end.
  Proof.
    induction l as [|x l IH]; intros i Hi; cbn [map_index map_result]; [exists []; repeat split; constructor|].
    pose proof (Hi 0%nat x eq_refl) as A. rewrite Nat.add_0_r in A. unfold agrees in A.
    destruct (item (child src (KInt (Z.of_nat i))) x) as [ov|e]; cbn [bind]; [|rewrite A; reflexivity].
    destruct A as (w & -> & A1 & A2). cbn [bind]. specialize (IH (S i)).
    destruct (map_index (fun i x => item (child src (KInt (Z.of_nat i))) x) (S i) l) as [ol|e]; cbn [bind].
    - destruct IH as (l' & -> & F & W).
      + intros j y E. replace (S i + j)%nat with (i + S j)%nat by lia. apply Hi. exact E.
      + cbn [bind]. exists (w :: l'). repeat split; constructor; assumption.
    - rewrite IH; [reflexivity|]. intros j y E. replace (S i + j)%nat with (i + S j)%nat by lia. apply Hi. exact E.
  Qed.

  Lemma agrees_impl (Q Q' : list key -> Prop) ro r : (forall q, Q q -> Q' q) -> agrees user Q ro r -> agrees user Q' ro r.
  Proof.
    intros H A. destruct ro as [x|]; [|exact A]. destruct A as (w & A1 & A2 & A3). exists w. repeat split; try assumption.
    eapply wo_impl; eassumption.
  Qed.
  Lemma agrees_imm Q w : is_dict w = false -> agrees user Q (Ok (OImm w)) (Ok w).
  Proof. intros H. exists w. repeat split. constructor. exact H. Qed.

  Lemma oparse_ok p : forall node src v, create_parser node = Ok p -> srcok user src v -> wfb v = true ->
    agrees user (below user src (shared_at node v)) (oparse o p src v) (parse o p v).
  Proof.
    induction p as [ty dft c mn mx al u vp kp IHv IHk] using parser_ind'. intros node src v Hn S Wv.
    destruct (node_types _ _ Hn) as [TD TL]. pose proof (create_parser_values _ _ Hn) as HV. cbn [p_type p_values] in TD, TL, HV.
    cbn [oparse parse].
    destruct (c && is_falsy v) eqn:Ec; [apply agrees_imm; reflexivity|].
    assert (Hitem : ty = TDict \/ ty = TDatasource \/ ty = TList -> forall src x, srcok user src x -> wfb x = true ->
        agrees user (below user src (shared_item_at (entry node "values") x))
          (match vp with Some q => oparse o q src x | None => Ok (same_object src x) end)
          (match vp with Some q => parse o q x | None => Ok x end)).
    { intros T src' x Sx Wx. specialize (HV T). destruct vp as [q|].
      - destruct HV as (vn & E & Hq). rewrite E. cbn [shared_item_at]. apply IHv; assumption.
      - rewrite HV. apply same_object_ok. exact Sx. }
    assert (Hwhole : ~ (ty = TDict \/ ty = TDatasource) -> ty <> TList ->
        agrees user (below user src (shared_at node v)) (Ok (same_object src v)) (Ok v)).
    { intros N1 N2. eapply agrees_impl; [|apply same_object_ok; exact S].
      intros q (base & rest & z & E1 & E2 & (-> & -> & C) & E3). exists base, [], v. repeat split; try assumption.
      constructor; [rewrite TD; exact N1|rewrite TL; exact N2|exact C]. }
    assert (Hdict : ty = TDict \/ ty = TDatasource -> forall d, v = VDict d ->
        match fold_result (oentry (fun k => match kp with Some q => parse o q (val_of_key k) | None => Ok (val_of_key k) end)
                            (fun src x => match vp with Some q => oparse o q src x | None => Ok (same_object src x) end) src) d [] with
        | Ok od => exists d', fold_result (parse_entry (fun k => match kp with Some q => parse o q (val_of_key k) | None => Ok (val_of_key k) end)
                            (fun x => match vp with Some q => parse o q x | None => Ok x end)) d [] = Ok d' /\ readrel user od d' /\
                      Forall (fun kx => wo (below user src (shared_at node v)) (snd kx)) od
        | Err e => fold_result (parse_entry (fun k => match kp with Some q => parse o q (val_of_key k) | None => Ok (val_of_key k) end)
                            (fun x => match vp with Some q => parse o q x | None => Ok x end)) d [] = Err e
        end).
    { intros T d ->. apply oentries_ok; [|constructor|constructor].
      intros k x I. eapply agrees_impl; [|apply Hitem; [tauto|eapply srcok_child; eassumption|apply wfb_dict in Wv; eapply Wv; exact I]].
      intros q (base & rest & z & E1 & E2 & C & E3). destruct src as [p0|]; [|discriminate E1]. cbn [child] in E1. injection E1 as <-.
      exists p0, (k :: rest), z. rewrite <- app_assoc in E2. repeat split; try assumption.
      destruct (entry node "values") as [vn|] eqn:EV; cbn [shared_item_at] in C.
      - eapply shared_in_item; [apply TD; exact T|exact EV|exact I|exact C].
      - destruct C as (-> & -> & C). eapply shared_item; [apply TD; exact T|exact EV|exact I|exact C]. }
    destruct ty.
    - (* float *) destruct (py_float v) as [f|]; cbn [bind]; [|reflexivity].
      destruct (check_bounds _ (VFloat f)) as [w|] eqn:E; cbn [bind]; [|reflexivity]. apply check_bounds_id in E. subst. apply agrees_imm. reflexivity.
    - destruct (py_int v) as [f|]; cbn [bind]; [|reflexivity].
      destruct (check_bounds _ (VInt f)) as [w|] eqn:E; cbn [bind]; [|reflexivity]. apply check_bounds_id in E. subst. apply agrees_imm. reflexivity.
    - destruct (is_truthy v); cbn [bind]; [apply agrees_imm; reflexivity|]. destruct (is_falsy v); cbn [bind]; [apply agrees_imm; reflexivity|reflexivity].
    - apply agrees_imm. reflexivity.
    - destruct (py_in v al); [|reflexivity]. apply Hwhole; [intros [E|E]; discriminate E|discriminate].
    - destruct (quant o v u false) as [q|e]; [apply Hwhole; [intros [E|E]; discriminate E|discriminate]|]. destruct e; reflexivity.
    - (* list *) destruct v; try reflexivity.
      + exists (VList []). repeat split. constructor. constructor.
      + pose proof (oelements_ok (fun src x => match vp with Some q => oparse o q src x | None => Ok (same_object src x) end)
          (fun x => match vp with Some q => parse o q x | None => Ok x end) src (below user src (shared_at node (VList l))) l l 0) as G.
        cbv beta in G.
        destruct (map_index _ 0 l) as [ol|e]; cbn [bind].
        * destruct G as (l' & G1 & G2 & G3).
          { intros j x E. eapply agrees_impl; [|apply Hitem; [right; right; reflexivity|eapply srcok_index; eassumption|
              apply wfb_list in Wv; rewrite Forall_forall in Wv; apply Wv; eapply nth_error_In; exact E]].
            intros q (base & rest & z & E1 & E2 & C & E3). destruct src as [p0|]; [|discriminate E1]. cbn [child] in E1. injection E1 as <-.
            exists p0, (KInt (Z.of_nat (0 + j)) :: rest), z. rewrite <- app_assoc in E2. repeat split; try assumption.
            destruct (entry node "values") as [vn|] eqn:EV; cbn [shared_item_at] in C.
            - eapply shared_in_element; [apply TL; reflexivity|exact EV|exact E|exact C].
            - destruct C as (-> & -> & C). eapply shared_element; [apply TL; reflexivity|exact EV|exact E|exact C]. }
          rewrite G1. cbn [bind]. exists (VList l'). split; [reflexivity|]. split; [apply oread_list; eauto|constructor; exact G3].
        * rewrite G; [reflexivity|].
          intros j x E. eapply agrees_impl; [|apply Hitem; [right; right; reflexivity|eapply srcok_index; eassumption|
              apply wfb_list in Wv; rewrite Forall_forall in Wv; apply Wv; eapply nth_error_In; exact E]].
            intros q (base & rest & z & E1 & E2 & C & E3). destruct src as [p0|]; [|discriminate E1]. cbn [child] in E1. injection E1 as <-.
            exists p0, (KInt (Z.of_nat (0 + j)) :: rest), z. rewrite <- app_assoc in E2. repeat split; try assumption.
            destruct (entry node "values") as [vn|] eqn:EV; cbn [shared_item_at] in C.
            -- eapply shared_in_element; [apply TL; reflexivity|exact EV|exact E|exact C].
            -- destruct C as (-> & -> & C). eapply shared_element; [apply TL; reflexivity|exact EV|exact E|exact C].
    - (* dict *) destruct v; try reflexivity.
      + exists (VDict []). repeat split. constructor. constructor.
      + specialize (Hdict (or_introl eq_refl) d eq_refl).
        change (agrees user (below user src (shared_at node (VDict d)))
          (do d' <- fold_result (oentry (fun k => match kp with Some q => parse o q (val_of_key k) | None => Ok (val_of_key k) end)
                            (fun src x => match vp with Some q => oparse o q src x | None => Ok (same_object src x) end) src) d []; Ok (ODict d'))
          (do d' <- fold_result (parse_entry (fun k => match kp with Some q => parse o q (val_of_key k) | None => Ok (val_of_key k) end)
                            (fun x => match vp with Some q => parse o q x | None => Ok x end)) d []; Ok (VDict d'))).
        destruct (fold_result (oentry _ _ _) d []) as [od|e]; cbn [bind].
        * destruct Hdict as (d' & -> & R & F). cbn [bind]. exists (VDict d'). split; [reflexivity|]. split; [apply oread_dict; eauto|constructor; exact F].
        * rewrite Hdict. reflexivity.
    - (* datasource *) destruct v; try reflexivity.
      specialize (Hdict (or_intror eq_refl) d eq_refl).
      change (agrees user (below user src (shared_at node (VDict d)))
          (do d' <- fold_result (oentry (fun k => match kp with Some q => parse o q (val_of_key k) | None => Ok (val_of_key k) end)
                            (fun src x => match vp with Some q => oparse o q src x | None => Ok (same_object src x) end) src) d [];
           if forallb (fun k => dmem d' (KStr k)) ["variable"; "unit"; "scenario"; "model"; "file"]%string then Ok (ODict d') else Err ValueError)
          (do d' <- fold_result (parse_entry (fun k => match kp with Some q => parse o q (val_of_key k) | None => Ok (val_of_key k) end)
                            (fun x => match vp with Some q => parse o q x | None => Ok x end)) d [];
           if forallb (fun k => dmem d' (KStr k)) ["variable"; "unit"; "scenario"; "model"; "file"]%string then Ok (VDict d') else Err ValueError)).
      destruct (fold_result (oentry _ _ _) d []) as [od|e]; cbn [bind].
      + destruct Hdict as (d' & -> & R & F). cbn [bind].
        assert (EB : forallb (fun k => dmem od (KStr k)) ["variable"; "unit"; "scenario"; "model"; "file"]%string =
                     forallb (fun k => dmem d' (KStr k)) ["variable"; "unit"; "scenario"; "model"; "file"]%string)
          by (cbn [forallb]; rewrite !(readrel_dmem _ _ _ _ R); reflexivity).
        rewrite EB. clear EB.
        destruct (forallb _ _); [|reflexivity].
        exists (VDict d'). split; [reflexivity|]. split; [apply oread_dict; eauto|constructor; exact F].
      + rewrite Hdict. reflexivity.
    - apply agrees_imm. reflexivity.
    - destruct v; try (apply agrees_imm; reflexivity). apply Hwhole; [intros [E|E]; discriminate E|discriminate].
  Qed.
End parse.

(** *** Assignments into new dictionaries *)
(** along [keys] there are only new dictionaries, as far as there is anything *)
Fixpoint own (x : oval) (keys : list key) : Prop :=
  match keys with
  | [] => False
  | k :: r => exists d, x = ODict d /\
      match r with [] => True | _ => match dget d k with Some y => own y r | None => True end end
  end.

Lemma oset_below user d k k2 r y : oset user (ODict d) (k :: k2 :: r) y =
  (do us <- oset user (match dget d k with Some s => s | None => ODict [] end) (k2 :: r) y; Ok (fst us, ODict (dset d k (snd us)))).
Proof. reflexivity. Qed.
Lemma set_below d k k2 r y : set_nested (VDict d) (k :: k2 :: r) y =
  (do s <- set_nested (match dget d k with Some s => s | None => VDict [] end) (k2 :: r) y; Ok (VDict (dset d k s))).
Proof. reflexivity. Qed.
Lemma own_oset user Q keys : forall x v, own x keys -> oread user x = Ok v -> wo Q x ->
  forall y w, oread user y = Ok w -> wo Q y ->
  exists x' v', oset user x keys y = Ok (user, x') /\ set_nested v keys w = Ok v' /\ oread user x' = Ok v' /\ wo Q x' /\
    (forall keys', own x keys' -> keys' = keys \/ incomparable keys' keys -> own x' keys').
Proof.
  induction keys as [|k r IH]; intros x v O E W y w Ey Wy; [destruct O|].
  destruct O as (d & -> & O). apply oread_dict in E as (d' & -> & R). inversion W as [| |? F|]; subst.
  destruct r as [|k2 r].
  - exists (ODict (dset d k y)), (VDict (dset d' k w)). cbn [oset set_nested].
    split; [reflexivity|]. split; [reflexivity|]. split; [apply oread_dict; eexists; split; [reflexivity|apply readrel_dset; assumption]|].
    split; [constructor; apply wo_dset; assumption|].
    intros [|k' r'] O' [E|[I1 I2]]; try (destruct O'; fail).
    + injection E as -> ->. eexists. split; [reflexivity|exact Logic.I].
    + destruct O' as (d0 & E0 & O'). injection E0 as <-. eexists. split; [reflexivity|]. destruct r' as [|k3 r']; [exact Logic.I|].
      rewrite dget_dset_other; [exact O'|]. intros ->. apply I2. cbn [is_prefix]. auto.
  - set (sub := match dget d k with Some s => s | None => ODict [] end).
    set (vsub := match dget d' k with Some s => s | None => VDict [] end).
    assert (Osub : own sub (k2 :: r)).
    { subst sub. destruct (dget d k) as [s|]; [exact O|]. exists []. split; [reflexivity|]. destruct r; exact Logic.I. }
    assert (Esub : oread user sub = Ok vsub).
    { subst sub vsub. pose proof (readrel_dget _ _ _ k R) as G. destruct (dget d k) as [s|].
      - destruct G as (v & -> & G). exact G.
      - rewrite G. reflexivity. }
    assert (Wsub : wo Q sub).
    { subst sub. destruct (dget d k) as [s|] eqn:Ek; [|constructor; constructor]. apply dget_In in Ek. rewrite Forall_forall in F. apply (F _ Ek). }
    destruct (IH _ _ Osub Esub Wsub _ _ Ey Wy) as (x' & v' & A1 & A2 & A3 & A4 & A5).
    exists (ODict (dset d k x')), (VDict (dset d' k v')).
    split; [rewrite oset_below; fold sub; rewrite A1; reflexivity|].
    split; [rewrite set_below; fold vsub; rewrite A2; reflexivity|].
    split; [apply oread_dict; eexists; split; [reflexivity|apply readrel_dset; assumption]|].
    split; [constructor; apply wo_dset; assumption|].
    intros [|k' r'] O' C; [destruct O'|].
    destruct O' as (d0 & E0 & O'). injection E0 as <-. eexists. split; [reflexivity|]. destruct r' as [|k3 r']; [exact Logic.I|].
    destruct (key_dec k k') as [<-|N]; [|rewrite dget_dset_other by exact N; exact O'].
    rewrite dget_dset_same. apply A5.
    + subst sub. destruct (dget d k) as [s|]; [exact O'|]. exists []. split; [reflexivity|]. destruct r'; exact Logic.I.
    + destruct C as [E|C]; [injection E as -> ->; left; reflexivity|right; eapply incomparable_cons_inv; exact C].
Qed.
Lemma own_empty keys : keys <> [] -> own (ODict []) keys.
Proof. destruct keys as [|k [|k2 r]]; [tauto| |]; intros _; exists []; split; try reflexivity; exact Logic.I. Qed.

(** *** The whole construction *)
Lemma dict_get_text q : forall v s, dict_get v q = Some (VStr s) -> text_in v s.
Proof.
  induction q as [|k q IH]; intros v s E; cbn [dict_get] in E.
  - injection E as ->. constructor.
  - destruct v as [| | | | | |d]; try discriminate E. destruct (dget d k) as [y|] eqn:K; [|discriminate E].
    apply dget_In in K. econstructor; [exact K|]. apply IH. exact E.
Qed.
Lemma leaf_own user Q q : forall x v s, oread user x = Ok v -> wo Q x -> dict_get v q = Some (VStr s) -> q <> [] ->
  own x q \/ exists p z, Q p /\ get_nested user p = Ok z /\ text_in z s.
Proof.
  induction q as [|k q IH]; intros x v s E W G N; [tauto|]. destruct x as [w|p|d|l].
  - inversion W; subst. cbn [oread] in E. injection E as <-. destruct w; cbn [dict_get] in G; try discriminate G. discriminate.
  - right. inversion W; subst. cbn [oread] in E. exists p, v. split; [assumption|]. split; [exact E|]. eapply dict_get_text. exact G.
  - apply oread_dict in E as (d' & -> & R). inversion W as [| |? F|]; subst. cbn [dict_get] in G.
    pose proof (readrel_dget _ _ _ k R) as RG. destruct (dget d' k) as [y'|] eqn:K; [|discriminate G].
    destruct (dget d k) as [y|] eqn:Kd; [|discriminate RG]. destruct RG as (y2 & E2 & Ry). injection E2 as <-.
    destruct q as [|k2 q]; [left; eexists; split; [reflexivity|exact Logic.I]|].
    destruct (IH y y' s Ry) as [O|O]; [|exact G|discriminate| |right; exact O].
    + rewrite Forall_forall in F. apply dget_In in Kd. apply (F _ Kd).
    + left. eexists. split; [reflexivity|]. cbv beta iota. rewrite Kd. exact O.
  - apply oread_list in E as (l' & -> & R). cbn [dict_get] in G. discriminate G.
Qed.

Definition held (t user : pyval) (q : list key) : Prop := exists z, shared_object t user q z /\ get_nested user q = Ok z.

Section build.
  Variable o : oracles.
  Variables t user : pyval.
  Hypothesis Wt : wfb t = true.
  Hypothesis St : all_keys string_key t.
  Hypothesis Wu : wfb user = true.
  Let Q := held t user.

  Lemma obuild_fold L : ForallOrdPairs leaf_inc L -> (forall q n, In (q, n) L -> exists P, q = keys_of P /\ param_at t P n) ->
    forall op parsed tree raw tree', oread user op = Ok parsed -> wo Q op -> (forall q n, In (q, n) L -> own op q) ->
    fold_result (parse_leaf o user) L (parsed, tree) = Ok (raw, tree') ->
    exists op', fold_result (oparse_leaf o) L ((user, op), tree) = Ok ((user, op'), tree') /\ oread user op' = Ok raw /\ wo Q op'.
  Proof.
    induction L as [|[q n] L IH]; intros FO HP op parsed tree raw tree' E W O F; cbn [fold_result] in F |- *.
    - injection F as <- <-. eauto.
    - destruct (parse_leaf o user (parsed, tree) (q, n)) as [[p1 t1]|] eqn:F1; cbn [bind] in F; [|discriminate].
      unfold parse_leaf in F1.
      destruct (create_parser n) as [pr|] eqn:CP; cbn [bind] in F1; [|discriminate].
      destruct (ptree_set tree q pr) as [t2|] eqn:PS; cbn [bind] in F1; [|discriminate].
      destruct (parser_get o pr user q) as [v|] eqn:PG; cbn [bind] in F1; [|discriminate].
      destruct (set_nested parsed q v) as [p2|] eqn:SN; cbn [bind] in F1; [|discriminate]. injection F1 as -> ->.
      destruct (HP q n (or_introl eq_refl)) as (P & -> & PA).
      assert (Wn : wfb n = true).
      { pose proof (param_at_leaves _ _ _ PA []) as I. eapply wfb_get; [exact Wt|apply (str_path_keys_of P)|].
        apply (leaves_get schema_leaf t Wt [] (keys_of P) n I). }
      assert (G : exists ov, oget o pr user (keys_of P) = Ok ov /\ oread user ov = Ok v /\ wo Q ov).
      { unfold oget, parser_get in *. destruct (get_nested user (keys_of P)) as [x|e] eqn:GU.
        - pose proof (oparse_ok o user pr n (Some (keys_of P)) x CP GU
            (wfb_get _ _ _ Wu (str_path_keys_of P) GU)) as A.
          destruct (oparse o pr (Some (keys_of P)) x) as [ov|]; [|cbn [agrees] in A; congruence].
          destruct A as (w & A1 & A2 & A3). exists ov. split; [reflexivity|]. split; [congruence|].
          eapply wo_impl; [|exact A3]. intros q (base & rest & z & B1 & -> & B2 & B3). injection B1 as <-.
          exists z. split; [|exact B3]. exists P, n, x, rest. split; [exact PA|]. split; [apply lookup_get; exact GU|]. split; [exact B2|reflexivity].
        - destruct e; try discriminate PG.
          pose proof (oparse_ok o user pr n None (p_default pr) CP Logic.I (create_parser_default_wf _ _ Wn CP)) as A.
          destruct (oparse o pr None (p_default pr)) as [ov|]; [|cbn [agrees] in A; congruence].
          destruct A as (w & A1 & A2 & A3). exists ov. split; [reflexivity|]. split; [congruence|].
          eapply wo_impl; [|exact A3]. intros q (base & rest & z & B1 & _). discriminate B1. }
      destruct G as (ov & G1 & G2 & G3).
      destruct (own_oset user Q (keys_of P) op parsed (O _ _ (or_introl eq_refl)) E W ov v G2 G3) as (x' & v' & A1 & A2 & A3 & A4 & A5).
      rewrite SN in A2. injection A2 as <-.
      unfold oparse_leaf at 1. cbn [fst snd]. rewrite CP. cbn [bind]. rewrite PS. cbn [bind]. rewrite G1. cbn [bind]. rewrite A1. cbn [bind].
      inversion FO as [|a l FO1 FO2]; subst.
      apply (IH FO2) with (parsed := p1); try assumption.
      + intros; apply HP; right; assumption.
      + intros q' n' I. apply A5; [eapply O; right; exact I|]. right. rewrite Forall_forall in FO1. specialize (FO1 _ I).
        apply incomparable_sym. exact FO1.
  Qed.

End build.

Section build2.
  Variable o : oracles.
  Lemma ocheck_ok t user raw tree : wfb t = true -> all_keys string_key t -> wfb user = true -> check_params o t user = Ok (raw, tree) ->
    exists op, ocheck_params o t user = Ok ((user, op), tree) /\ oread user op = Ok raw /\ wo (held t user) op.
  Proof.
    intros Wt St Wu. unfold check_params, parse_params, ocheck_params. destruct t as [| | | | | |d] eqn:Et; try discriminate. rewrite <- Et in *.
    intros H. destruct (fold_result (parse_leaf o user) (leaves schema_leaf [] t) (VDict [], PNode [])) as [[r0 t0]|] eqn:F;
      cbn [bind fst snd] in H; [|discriminate].
    destruct (check_obsolete_params user r0 t0) as [u|] eqn:CO; cbn [bind] in H; [|discriminate]. injection H as -> ->.
    destruct (obuild_fold o t user Wt Wu (leaves schema_leaf [] t)) with (op := ODict []) (parsed := VDict []) (tree := PNode []) (raw := raw) (tree' := tree)
      as (op & A1 & A2 & A3).
    - apply leaves_incomparable, Wt.
    - intros q n I. destruct (leaves_param_at _ St _ _ _ I) as (P & -> & PA). exists P. auto.
    - reflexivity.
    - constructor. constructor.
    - intros q n I. apply own_empty. destruct (leaves_prefix _ _ _ _ _ I) as (k & r & ->). discriminate.
    - exact F.
    - rewrite A1. cbn [bind fst snd]. rewrite A2. cbn [bind]. rewrite CO. cbn [bind]. eauto.
  Qed.

  Variables t user : pyval.
  Let Q := held t user.
  Hypothesis Href : forall q z s, shared_object t user q z -> text_in z s -> no_brace s.

  Lemma oresolve_fold params L : forall cur op, oread user op = Ok cur -> wo Q op -> ForallOrdPairs leaf_inc L ->
    (forall q n, In (q, n) L -> forall s, n = VStr s -> findall_refs s = [] \/ own op q) ->
    fold_result resolve_leaf L cur = Ok params ->
    exists op', fold_result oresolve_leaf L (user, op) = Ok (user, op') /\ oread user op' = Ok params /\ wo Q op'.
  Proof.
    induction L as [|[q n] L IH]; intros cur op E W FO HL H; cbn [fold_result] in H |- *.
    - injection H as <-. eauto.
    - inversion FO as [|a l FO1 FO2]; subst.
      destruct (resolve_leaf cur (q, n)) as [c1|] eqn:R1; cbn [bind] in H; [|discriminate].
      assert (G : exists op1, oresolve_leaf (user, op) (q, n) = Ok (user, op1) /\ oread user op1 = Ok c1 /\ wo Q op1 /\
        (forall q', own op q' -> q' = q \/ incomparable q' q -> own op1 q')).
      { unfold resolve_leaf, oresolve_leaf in *. cbn [fst snd] in *.
        destruct n as [| | | |s| |]; try (injection R1 as <-; exists op; repeat split; auto; fail).
        destruct (HL q (VStr s) (or_introl eq_refl) s eq_refl) as [N|O].
        { rewrite N in *. cbn [fold_result] in *. injection R1 as <-. exists op. auto. }
        clear HL FO FO1 H IH. revert op cur E W O R1. induction (findall_refs s) as [|m ms IHm]; intros op cur E W O R1; cbn [fold_result] in R1 |- *.
        { injection R1 as <-. exists op. auto. }
        unfold resolve_match at 1 in R1. unfold oresolve_match at 1. cbn [fst snd]. rewrite E. cbn [bind].
        destruct (get_nested cur (map KStr (str_split m " - "))) as [v|e] eqn:Gm.
        - destruct v as [| | | |other| |]; try discriminate R1.
          destruct (own_oset user Q q op cur O E W (OImm (VStr (str_replace s ("{" ++ m ++ "}")%string other))) _ eq_refl
            (wo_imm _ (VStr _) eq_refl)) as (x' & v' & A1 & A2 & A3 & A4 & A5).
          rewrite A1. rewrite A2 in R1. cbn [bind] in R1 |- *.
          destruct (IHm x' v' A3 A4) as (op1 & B1 & B2 & B3 & B4).
          + apply A5; [exact O|left; reflexivity].
          + exact R1.
          + exists op1. repeat split; try assumption. intros q' O' C. apply B4; [apply A5; assumption|exact C].
        - destruct e; try discriminate R1. cbn [bind] in R1 |- *. apply (IHm op cur E W O R1). }
      destruct G as (op1 & A1 & A2 & A3 & A4). rewrite A1. cbn [bind].
      apply (IH c1 op1 A2 A3 FO2); [|exact H].
      intros q' n' I s Es. destruct (HL q' n' (or_intror I) s Es) as [N|O]; [left; exact N|right].
      apply A4; [exact O|]. right. rewrite Forall_forall in FO1. apply incomparable_sym. apply (FO1 _ I).
  Qed.

  Lemma oresolve_ok raw params op : wfb raw = true -> oread user op = Ok raw -> wo Q op -> parse_param_values raw = Ok params ->
    exists op', oparse_param_values (user, op) = Ok (user, op') /\ oread user op' = Ok params /\ wo Q op'.
  Proof.
    intros Wr E W H. unfold oparse_param_values. cbn [fst snd]. rewrite E. cbn [bind].
    unfold parse_param_values in H.
    assert (HL : forall q n, In (q, n) (leaves value_leaf [] raw) -> forall s, n = VStr s -> findall_refs s = [] \/ own op q).
    { intros q n I s ->. pose proof (leaves_dict_get value_leaf raw Wr [] q _ I) as G.
      destruct (leaf_own user Q q op raw s E W G) as [O|(p & z & (z' & Z1 & Z2) & B1 & B2)].
      - destruct (leaves_prefix _ _ _ _ _ I) as (k & r & ->). discriminate.
      - right. exact O.
      - left. apply findall_no_brace. rewrite B1 in Z2. injection Z2 as ->. eapply Href; eassumption. }
    pose proof (leaves_incomparable value_leaf raw Wr []) as FO.
    destruct raw as [| | | | | |d]; try discriminate H.
    apply (oresolve_fold params _ _ op E W FO HL H).
  Qed.
End build2.

(** Constructing a model leaves the caller's dictionary as it was, and the model keeps the checked parameters [params], also when
    the caller edits his dictionary afterwards (outside the shared objects).  The hypothesis: no shared object contains a
    text with "{". *)
Lemma C62_caller_unchanged_pf : forall o user raw params tree, accepted o user raw params tree ->
  (forall q z s, shared_object config_default user q z -> text_in z s -> no_brace s) ->
  exists self, oconstruct o config_default user = Ok (user, self) /\ oread user self = Ok params /\
    forall user', (forall q z, shared_object config_default user q z -> get_nested user q = Ok z -> get_nested user' q = Ok z) ->
      oread user' self = Ok params.
Proof.
  intros o user raw params tree A Href. pose proof (accepted_distinct _ _ _ _ _ A) as Wr. destruct A as (Du & CP & PV).
  apply distinct_wfb in Du, Wr.
  destruct (ocheck_ok o config_default user raw tree default_wf default_string Du CP) as (op & A1 & A2 & A3).
  destruct (oresolve_ok config_default user Href raw params op Wr A2 A3 PV) as (self & B1 & B2 & B3).
  exists self. unfold oconstruct. rewrite A1. cbn [bind fst]. split; [exact B1|]. split; [exact B2|].
  intros user' H. eapply oread_agree; [exact B3| |exact B2].
  intros q (z & Z1 & Z2). rewrite Z2. apply H; assumption.
Qed.

(** *** Checking the hypothesis *)
Fixpoint texts_plain (v : pyval) : bool :=
  match v with
  | VStr s => negb (has_brace s)
  | VDict d => (fix go (l : pydict) : bool := match l with [] => true | (_, y) :: r => texts_plain y && go r end) d
  | _ => true
  end.
Lemma texts_plain_ok v : texts_plain v = true -> forall s, text_in v s -> no_brace s.
Proof.
  induction v using pyval_ind'; intros T s0 I; inversion I; subst.
  - cbn [texts_plain] in T. apply has_brace_false. destruct (has_brace s0); [discriminate|reflexivity].
  - cbn [texts_plain] in T. match goal with X : In (?k, ?y) d |- _ => rename X into J; rename k into k0; rename y into y0 end.
    clear I. induction d as [|[k1 y1] d IH]; [destruct J|]. apply andb_true_iff in T as [T1 T2]. inversion H as [|? ? F1 F2]; subst.
    destruct J as [E|J]; [injection E as -> ->; eapply F1; eassumption|]. apply IH; assumption.
Qed.
Definition type_is (node : pyval) (t : string) : bool :=
  match entry node "type" with Some (VStr t') => String.eqb t' t | _ => false end.
Lemma type_is_iff node t : type_is node t = true <-> has_type node t.
Proof.
  unfold type_is, has_type. destruct (entry node "type") as [[| | | |t'| |]|]; split; try discriminate.
  - intros E. apply String.eqb_eq in E. subst. reflexivity.
  - intros E. injection E as ->. apply String.eqb_refl.
Qed.
Fixpoint plain_shared (fuel : nat) (node x : pyval) : bool :=
  match fuel with
  | O => false
  | S n =>
      let item (y : pyval) := match entry node "values" with
        | None => match y with VDict _ => texts_plain y | _ => true end
        | Some vn => plain_shared n vn y end in
      if type_is node "dict" || type_is node "datasource" then match x with VDict d => forallb (fun ky => item (snd ky)) d | _ => true end
      else if type_is node "list" then match x with VList l => forallb item l | _ => true end
      else match x with VDict _ => texts_plain x | _ => true end
  end.
Lemma plain_shared_ok node x rest z : shared_at node x rest z -> forall n, plain_shared n node x = true ->
  forall s, text_in z s -> no_brace s.
Proof.
  assert (TDe : forall node, dict_type node -> type_is node "dict" || type_is node "datasource" = true).
  { intros nd [E|E]; apply type_is_iff in E; rewrite E; [reflexivity|apply orb_true_r]. }
  assert (TLe : forall node, list_type node -> type_is node "dict" || type_is node "datasource" = false /\ type_is node "list" = true).
  { intros nd E. split; [|apply type_is_iff; exact E]. unfold list_type, has_type in E. unfold type_is. rewrite E. reflexivity. }
  induction 1 as [node x N1 N2 C|node d k y T V J C|node vn d k y rest z T V J S IH|node l i y T V J C|node vn l i y rest z T V J S IH];
    intros [|n] P s I; cbn [plain_shared] in P; try discriminate P.
  - assert (E1 : type_is node "dict" || type_is node "datasource" = false).
    { apply not_true_is_false. intros E. apply N1. apply orb_true_iff in E as [E|E]; apply type_is_iff in E; [left|right]; exact E. }
    assert (E2 : type_is node "list" = false).
    { apply not_true_is_false. intros E. apply N2. apply type_is_iff in E. exact E. }
    rewrite E1, E2 in P. destruct x; try (inversion I; fail); try (destruct C; fail). eapply texts_plain_ok; eassumption.
  - rewrite (TDe _ T), V in P. rewrite forallb_forall in P. specialize (P _ J). cbn [snd] in P.
    destruct y; try (inversion I; fail); try (destruct C; fail). eapply texts_plain_ok; eassumption.
  - rewrite (TDe _ T), V in P. rewrite forallb_forall in P. specialize (P _ J). cbn [snd] in P. eapply IH; eassumption.
  - destruct (TLe _ T) as [E1 E2]. rewrite E1, E2, V in P. rewrite forallb_forall in P. specialize (P _ (nth_error_In _ _ J)).
    destruct y; try (inversion I; fail); try (destruct C; fail). eapply texts_plain_ok; eassumption.
  - destruct (TLe _ T) as [E1 E2]. rewrite E1, E2, V in P. rewrite forallb_forall in P. specialize (P _ (nth_error_In _ _ J)).
    eapply IH; eassumption.
Qed.
Lemma plain_shared_user user :
  forallb (fun l => match dict_get user (fst l) with Some x => plain_shared 10 (snd l) x | None => true end) (leaves schema_leaf [] config_default) = true ->
  forall q z s, shared_object config_default user q z -> text_in z s -> no_brace s.
Proof.
  intros H q z s (P & node & x & rest & PA & L & S & _) I. rewrite forallb_forall in H.
  specialize (H _ (param_at_leaves _ _ _ PA [])). cbn [fst snd app] in H. rewrite lookup_dict_get in L. rewrite L in H.
  eapply plain_shared_ok; eassumption.
Qed.
