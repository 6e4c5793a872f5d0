(** Non-vacuity of C63 and C64: {"time": {"dt": 10}} against {"time": {"dt": 10, "end": 2100}} with the regions listed in reverse,
    and against a configuration with two regions. *)
From Verif Require Import PyBase NestedDict Parsers Config ConfigDefault NestedDictFacts ConfigSpec ConfigBridge ConfigLemmas TimeGrid TimeGridLemmas DataStore DataStoreLemmas
  RegionalParams Instantiate InstFacts InstantiateLemmas ConstructFacts BundledData BundledFacts BundledSigns Model Build Loading LoadingLemmas LoadingExist EndToEnd BundledExample EndToEndExample
  Setters2 Horizon RegionOrder SameInputs ScopeLemmas WelfareSpec ConfigFacts.
From Coq Require Import QArith Qreals Permutation Reals Lra Lia.
Import ListNotations.
Open Scope string_scope.
Open Scope list_scope.
Open Scope R_scope.
Set Bullet Behavior "Strict Subproofs".

Definition user_with (stop : Z) (rs : list (key * pyval)) : pyval :=
  VDict [(KStr "time", VDict [(KStr "dt", VFloat (FFin 10)); (KStr "end", VInt stop)]); (KStr "regions", VDict rs)].
Definition drop (k : string) (v : pyval) : pyval :=
  match v with VDict d => VDict (filter (fun kv => negb (key_eqb (fst kv) (KStr k))) d) | _ => v end.
Lemma lookup_drop k k' rest v : String.eqb k' k = false -> lookup (drop k v) (k' :: rest) = lookup v (k' :: rest).
Proof.
  intros N. destruct v; try reflexivity. cbn [drop lookup].
  assert (H : dget (filter (fun kv => negb (key_eqb (fst kv) (KStr k))) d) (KStr k') = dget d (KStr k')); [|rewrite H; reflexivity].
  induction d as [|[x y] d IH]; [reflexivity|]. cbn [filter fst dget].
  destruct (key_eqb x (KStr k)) eqn:E; cbn [negb]; [|cbn [dget]; rewrite IH; reflexivity].
  destruct (key_eqb x (KStr k')) eqn:E'; [|exact IH].
  apply key_eqb_eq in E, E'. subst x. injection E' as <-. rewrite String.eqb_refl in N. discriminate N.
Qed.
(** Two dictionaries that agree after removing the regions and the end year. *)
Lemma scope_of params params' rs rs' tm tm' :
  drop "time" (drop "regions" params') = drop "time" (drop "regions" params) ->
  lookup params ["time"] = Some tm -> lookup params' ["time"] = Some tm' -> drop "end" tm' = drop "end" tm ->
  lookup params ["regions"] = Some (VDict rs) -> lookup params' ["regions"] = Some (VDict rs') ->
  (forall r e, dget rs' (KStr r) = Some e -> dget rs (KStr r) = Some e) -> same_but_scope params params'.
Proof.
  intros D T T' DT R R' RR. split.
  - intros [|k rest] K; [discriminate K|]. cbn [kept] in K.
    destruct (String.eqb k "regions") eqn:E1; [discriminate K|]. destruct (String.eqb k "time") eqn:E2.
    + apply String.eqb_eq in E2. subst k. destruct rest as [|k' rest]; [discriminate K|].
      change ("time" :: k' :: rest) with (["time"] ++ k' :: rest)%list. rewrite !lookup_app, T, T'.
      apply Bool.negb_true_iff in K. rewrite <- (lookup_drop "end" k' rest tm' K), <- (lookup_drop "end" k' rest tm K), DT. reflexivity.
    + rewrite <- (lookup_drop "regions" k rest params' E1), <- (lookup_drop "regions" k rest params E1).
      rewrite <- (lookup_drop "time" k rest (drop "regions" params') E2), <- (lookup_drop "time" k rest (drop "regions" params) E2), D. reflexivity.
  - intros r e. change ["regions"; r] with (["regions"] ++ [r])%list. rewrite !lookup_app, R, R'. cbn [lookup].
    destruct (dget rs' (KStr r)) as [x|] eqn:X; [|discriminate]. rewrite (RR _ _ X). auto.
Qed.

(** The parameters of a configuration: check_params and parse_param_values *)
Definition raw_of (user : pyval) : pyval := match check_params py_oracles config_default user with Ok st => fst st | Err _ => VNone end.
Definition tree_of (user : pyval) : ptree := match check_params py_oracles config_default user with Ok st => snd st | Err _ => PNode [] end.
Definition params_of (user : pyval) : pyval := match parse_param_values (raw_of user) with Ok v => v | Err _ => VNone end.
Lemma accepted_of user : wfb user = true -> match check_params py_oracles config_default user with Ok _ => true | Err _ => false end = true ->
  match parse_param_values (raw_of user) with Ok _ => true | Err _ => false end = true -> accepted py_oracles user (raw_of user) (params_of user) (tree_of user).
Proof.
  intros W H H'. split; [apply distinct_wfb, W|]. split.
  - unfold raw_of, tree_of. destruct (check_params py_oracles config_default user) as [[a b]|]; [reflexivity|discriminate].
  - unfold params_of. destruct (parse_param_values (raw_of user)); [reflexivity|discriminate].
Qed.
Lemma plain_of raw : forallb (fun l => match entry (snd l) "type" with
    | Some (VStr t) => if String.eqb t "quantity" then match dict_get raw (fst l) with Some (VStr s) => negb (has_brace s) | Some v => negb (is_dict v) | None => true end else true
    | _ => true end) (leaves schema_leaf [] config_default) = true -> plain_quantities raw.
Proof.
  intros H p node v P T L. pose proof (param_at_leaves _ _ _ P []) as I. cbn [app] in I.
  rewrite forallb_forall in H. specialize (H _ I). cbn [fst snd] in H. unfold has_type in T. rewrite T in H. change (String.eqb "quantity" "quantity") with true in H. cbv iota in H.
  rewrite <- lookup_dict_get, L in H. destruct v; try (split; [destruct (is_dict _); [discriminate|reflexivity]|intros ? E; discriminate E]).
  split; [reflexivity|]. intros s' E. injection E as <-. apply has_brace_false. destruct (has_brace s); [discriminate|reflexivity].
Qed.
Lemma names_of d : forallb (fun kx : key * pyval => match fst kx with KStr r => existsb (String.eqb r) image_regions | _ => false end) d = true ->
  forall k x, In (k, x) d -> exists r, k = KStr r /\ In r image_regions.
Proof.
  intros H k x I. rewrite forallb_forall in H. specialize (H _ I). cbn [fst] in H. destruct k as [r|z]; [|discriminate H]. apply existsb_exists in H as (r' & R1 & R2).
  apply String.eqb_eq in R2. subst r'. exists r. split; [reflexivity|exact R1].
Qed.
(** A model of the 26-region default configuration with steps of ten years, to any of these ends. *)
Lemma made user d stop : accepted py_oracles user (raw_of user) (params_of user) (tree_of user) -> default_inputs user -> plain_quantities (raw_of user) ->
  lookup (params_of user) ["regions"] = Some (VDict d) -> (forall k x, In (k, x) d -> exists r, k = KStr r /\ In r image_regions) ->
  number_at (params_of user) ["time"; "start"] 2020 -> number_at (params_of user) ["time"; "end"] stop -> (stop <= 2200)%Q ->
  lookup (params_of user) ["time"; "dt"] <> Some (VFloat FNaN) ->
  exists inst, construct py_oracles bundled (fun l => l) unit_one curve (after unit_one curve [] empty_caches) user = Ok inst /\ i_params inst = params_of user.
Proof.
  intros A D P L K S E B N.
  destruct (C57_bundled_constructs_pf py_oracles (fun l => l) unit_one curve [] user _ _ _ d 2020 stop A D P L K S E) as (inst & I1 & I2 & _); eauto.
  - discriminate.
  - exact py_prints.
  - intros v to from _. exists 1. reflexivity.
  - exact curve_defined.
  - intros disk a [].
Qed.
Lemma regions_of o disk mo uf sp c user inst d : construct o disk mo uf sp c user = Ok inst -> lookup (i_params inst) ["regions"] = Some (VDict d) ->
  map KStr (i_regions inst) = map fst d.
Proof.
  intros C L. destruct (construct_inv _ _ _ _ _ _ _ _ C) as (raw & rs & ch & decls & st & dt & _ & _ & H3 & (l & H4 & H5) & _).
  rewrite L in H3. injection H3 as <-. rewrite H5. clear - H4. revert l H4. unfold items. induction d as [|[k v] d IH]; intros l H; cbn [map_result] in H.
  - injection H as <-. reflexivity.
  - apply bind_ok in H as (x & X & H). apply bind_ok in H as (l2 & H2 & H). injection H as <-. cbn [fst snd] in X.
    destruct k as [k|z]; [|discriminate X]. injection X as <-. cbn [map fst]. rewrite (IH _ H2). reflexivity.
Qed.
Lemma KStr_perm l : forall l', Permutation (map KStr l) (map KStr l') -> Permutation l l'.
Proof.
  intros l' P. apply (Permutation_map (fun k => match k with KStr s => s | KInt _ => "" end)) in P. rewrite !map_map, !map_id in P. exact P.
Qed.

Definition user_rev : pyval := user_with 2100 (rev regions10).
Definition user_two : pyval := user_with 2150 [(KStr "INDIA", VDict []); (KStr "CAN", VDict [])].
Ltac by_vm := vm_compute; reflexivity.
Ltac inputs := intros q Hq; cbn [In] in Hq; repeat (destruct Hq as [<-|Hq]; [reflexivity|]); destruct Hq.
Lemma made10 : exists inst, construct py_oracles bundled (fun l => l) unit_one curve (after unit_one curve [] empty_caches) user10 = Ok inst /\ i_params inst = params_of user10.
Proof.
  apply (made user10 regions10 2150); [exact accepted10|inputs|exact quantities10|exact lookup10|exact names10| | |discriminate|vm_compute; discriminate].
  all: eexists; split; by_vm.
Qed.
Lemma made_rev : exists inst, construct py_oracles bundled (fun l => l) unit_one curve (after unit_one curve [] empty_caches) user_rev = Ok inst /\ i_params inst = params_of user_rev.
Proof.
  apply (made user_rev (rev regions10) 2100); [apply accepted_of; by_vm|inputs|apply plain_of; by_vm|by_vm|apply names_of; by_vm| | |discriminate|vm_compute; discriminate].
  all: eexists; split; by_vm.
Qed.
Lemma made_two : exists inst, construct py_oracles bundled (fun l => l) unit_one curve (after unit_one curve [] empty_caches) user_two = Ok inst /\ i_params inst = params_of user_two.
Proof.
  apply (made user_two [(KStr "INDIA", VDict []); (KStr "CAN", VDict [])] 2150); [apply accepted_of; by_vm|inputs|apply plain_of; by_vm|by_vm|apply names_of; by_vm| | |discriminate|vm_compute; discriminate].
  all: eexists; split; by_vm.
Qed.

Lemma scope_rev : same_but_scope (params_of user10) (params_of user_rev).
Proof.
  refine (scope_of _ _ regions10 (rev regions10) _ _ _ _ _ _ _ _ _); try by_vm.
  - intros r e H. assert (E : forallb (fun kx => match dget regions10 (fst kx) with Some (VDict []) => match snd kx with VDict [] => true | _ => false end | Some VNone => match snd kx with VNone => true | _ => false end | _ => false end) (rev regions10) = true) by by_vm.
    apply dget_In in H. rewrite forallb_forall in E. specialize (E _ H). cbn [fst snd] in E.
    destruct (dget regions10 (KStr r)) as [[| | | | | |[|]]|]; try discriminate E; destruct e as [| | | | | |[|]]; try discriminate E; reflexivity.
Qed.
Lemma scope_two : same_but_scope (params_of user10) (params_of user_two).
Proof.
  refine (scope_of _ _ regions10 [(KStr "INDIA", VDict []); (KStr "CAN", VDict [])] _ _ _ _ _ _ _ _ _); try by_vm.
  - intros r e H. apply dget_In in H. destruct H as [H|[H|[]]]; injection H as <- <-; by_vm.
Qed.

Example C63_ex : exists inst inst' p p', construct py_oracles bundled (fun l => l) unit_one curve empty_caches user10 = Ok inst /\
  construct py_oracles bundled (fun l => l) unit_one curve empty_caches user_rev = Ok inst' /\ loads inst p /\ loads inst' p' /\ (tf p' <= tf p)%nat /\
  forall v, feasible p v -> feasible p' v.
Proof.
  destruct (C61_ex (fun _ => 0%nat) 0%nat) as (inst & p & comps & C & L & _). destruct made10 as (i0 & C0 & P0). cbn [after] in C0. rewrite C in C0. apply Ok_inj in C0. subst i0.
  destruct made_rev as (inst' & C' & P'). cbn [after] in C'.
  assert (SB : same_but_scope (i_params inst) (i_params inst')) by (rewrite P0, P'; exact scope_rev).
  assert (PM : Permutation (i_regions inst) (i_regions inst')).
  { apply KStr_perm. rewrite (regions_of _ _ _ _ _ _ _ _ regions10 C), (regions_of _ _ _ _ _ _ _ _ (rev regions10) C').
    - rewrite map_rev. apply Permutation_rev.
    - rewrite P'. by_vm.
    - rewrite P0. exact lookup10. }
  destruct (C63_cut_off_pf py_oracles bundled (fun l => l) unit_one curve [] [] user10 user_rev inst inst' p 2020%Q 2150%Q 2100%Q) as (p' & L' & T & F & _); auto.
  - exact distinct10.
  - apply distinct_wfb. by_vm.
  - intros d b [].
  - rewrite P0. eexists; split; by_vm.
  - rewrite P0. eexists; split; by_vm.
  - rewrite P'. eexists; split; by_vm.
  - discriminate.
  - discriminate.
  - exists inst, inst', p, p'. do 5 (split; [assumption|]). exact F.
Qed.
(** A model of India and Canada alone has their numbers of the model of all regions. *)
Example C64_ex : exists inst inst' p, construct py_oracles bundled (fun l => l) unit_one curve empty_caches user10 = Ok inst /\
  construct py_oracles bundled (fun l => l) unit_one curve empty_caches user_two = Ok inst' /\ loads inst p /\ loads inst' (with_regions ["INDIA"; "CAN"] p).
Proof.
  destruct (C61_ex (fun _ => 0%nat) 0%nat) as (inst & p & comps & C & L & _). destruct made10 as (i0 & C0 & P0). cbn [after] in C0. rewrite C in C0. apply Ok_inj in C0. subst i0.
  destruct made_two as (inst' & C' & P'). cbn [after] in C'.
  assert (SB : same_but_scope (i_params inst) (i_params inst')) by (rewrite P0, P'; exact scope_two).
  exists inst, inst', p. do 3 (split; [assumption|]).
  replace ["INDIA"; "CAN"] with (i_regions inst').
  - apply (C64_left_out_pf py_oracles bundled (fun l => l) unit_one curve [] [] user10 user_two inst inst' p); auto.
    + exact distinct10.
    + apply distinct_wfb. by_vm.
    + intros d b [].
    + rewrite P0, P'. by_vm.
  - assert (R : map KStr (i_regions inst') = map KStr ["INDIA"; "CAN"]).
    { rewrite (regions_of _ _ _ _ _ _ _ _ [(KStr "INDIA", VDict []); (KStr "CAN", VDict [])] C'); [reflexivity|]. rewrite P'. by_vm. }
    apply (f_equal (map (fun k => match k with KStr s => s | KInt _ => "" end))) in R. rewrite !map_map, !map_id in R. exact R.
Qed.
