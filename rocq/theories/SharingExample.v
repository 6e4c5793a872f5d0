(** C62: the calibration script's use of one dictionary for several runs, and what happens to references in shared objects. *)
From Verif Require Import PyBase NestedDict NestedDictFacts Parsers Config ConfigDefault ConfigFacts ConfigSpec ConfigBridge
  ConfigLemmas InstFacts Sharing SharingSpec SharingLemmas BundledExample.
Import ListNotations.
Open Scope list_scope.

(** run_calibration.py 6-9, 18: params = load_params(); params["emissions"]["carbonbudget"] = "500 GtCO2"; MIMOSA(params) *)
Definition with_budget (b : string) : pyval :=
  match set_nested raw_ex [KStr "emissions"; KStr "carbonbudget"] (VStr b) with Ok v => v | Err _ => VNone end.
Definition user_cal : pyval := with_budget "500 GtCO2".
Definition raw_cal : pyval := match check_params py_oracles config_default user_cal with Ok st => fst st | Err _ => VNone end.
Definition tree_cal : ptree := match check_params py_oracles config_default user_cal with Ok st => snd st | Err _ => PNode [] end.
Definition params_cal : pyval := match parse_param_values raw_cal with Ok v => v | Err _ => VNone end.
Lemma accepted_cal : accepted py_oracles user_cal raw_cal params_cal tree_cal.
Proof.
  split; [apply distinct_wfb; vm_compute; reflexivity|]. split.
  - unfold raw_cal, tree_cal. assert (H : match check_params py_oracles config_default user_cal with Ok _ => true | Err _ => false end = true) by (vm_compute; reflexivity).
    destruct (check_params py_oracles config_default user_cal) as [[a b]|]; [reflexivity|discriminate].
  - unfold params_cal. assert (H : match parse_param_values raw_cal with Ok _ => true | Err _ => false end = true) by (vm_compute; reflexivity).
    destruct (parse_param_values raw_cal); [reflexivity|discriminate].
Qed.
Lemma plain_cal : forall q z s, shared_object config_default user_cal q z -> text_in z s -> no_brace s.
Proof. apply plain_shared_user. vm_compute. reflexivity. Qed.
(** The hypotheses of C62_caller_unchanged hold for that dictionary. *)
Lemma C62_ex : exists self, oconstruct py_oracles config_default user_cal = Ok (user_cal, self) /\ oread user_cal self = Ok params_cal.
Proof.
  destruct (C62_caller_unchanged_pf _ _ _ _ _ accepted_cal plain_cal) as (self & H1 & H2 & _). eauto.
Qed.

Definition user_ref : pyval :=
  VDict [(KStr "simulation", VDict [(KStr "constraint_variables", VDict [(KStr "relative_abatement", VDict [(KStr "scenario", VStr "{SSP}")])])])].
Definition deep : path := ["simulation"; "constraint_variables"; "relative_abatement"; "scenario"]%string.
Definition ok_pair (r : result (pyval * oval)) : pyval * oval := match r with Ok x => x | Err _ => (VNone, OImm VNone) end.

Definition is_ok {A} (r : result A) : bool := match r with Ok _ => true | Err _ => false end.
Lemma pair_eq r u : is_ok r = true -> fst (ok_pair r) = u -> r = Ok (u, snd (ok_pair r)).
Proof. destruct r as [[a b]|]; [|discriminate]. cbn [ok_pair fst snd]. intros _ ->. reflexivity. Qed.
Definition ok_val (r : result pyval) : pyval := match r with Ok x => x | Err _ => VNone end.
Lemma val_eq r : is_ok r = true -> r = Ok (ok_val r).
Proof. destruct r; [reflexivity|discriminate]. Qed.
Definition run1 := oconstruct py_oracles config_default user_ref.
Definition user_ref2 : pyval := ok_val (set_nested (fst (ok_pair run1)) [KStr "SSP"] (VStr "SSP1")).
Definition run2 := oconstruct py_oracles config_default user_ref2.
Definition user_ref3 : pyval := VDict ((KStr "SSP", VStr "SSP1") :: match user_ref with VDict d => d | _ => [] end).
Definition run3 := oconstruct py_oracles config_default user_ref3.
Definition seen (r : result (pyval * oval)) := oread (fst (ok_pair r)) (snd (ok_pair r)).

(** A reference in a shared object is replaced in the caller's dictionary; a second model made from the same
    dictionary with another SSP gets the text of the first one. *)
Lemma C62_shared_reference_refuted_pf : exists o user user' self user2 self2 user3 self3,
  lookup user deep = Some (VStr "{SSP}") /\
  oconstruct o config_default user = Ok (user', self) /\ lookup user' deep = Some (VStr "SSP2") /\ user' <> user /\
  set_nested user' [KStr "SSP"] (VStr "SSP1") = Ok user2 /\
  oconstruct o config_default user2 = Ok (user2, self2) /\
  (exists p2, oread user2 self2 = Ok p2 /\ lookup p2 ["SSP"]%string = Some (VStr "SSP1") /\ lookup p2 deep = Some (VStr "SSP2")) /\
  oconstruct o config_default (VDict ((KStr "SSP", VStr "SSP1") :: match user with VDict d => d | _ => [] end)) = Ok (user3, self3) /\
  (exists p3, oread user3 self3 = Ok p3 /\ lookup p3 deep = Some (VStr "SSP1")).
Proof.
  exists py_oracles, user_ref, (fst (ok_pair run1)), (snd (ok_pair run1)), user_ref2, (snd (ok_pair run2)), (fst (ok_pair run3)), (snd (ok_pair run3)).
  assert (L1 : lookup (fst (ok_pair run1)) deep = Some (VStr "SSP2")) by (vm_compute; reflexivity).
  assert (E2 : fst (ok_pair run2) = user_ref2) by (vm_compute; reflexivity).
  split; [reflexivity|]. split; [apply pair_eq; [vm_compute; reflexivity|reflexivity]|].
  split; [exact L1|]. split; [intros E; rewrite E in L1; vm_compute in L1; discriminate L1|].
  split; [apply val_eq; vm_compute; reflexivity|]. split; [apply pair_eq; [vm_compute; reflexivity|exact E2]|].
  split; [|split].
  - exists (ok_val (seen run2)). split; [rewrite <- E2; apply (val_eq (seen run2)); vm_compute; reflexivity|]. split; vm_compute; reflexivity.
  - apply (pair_eq run3); [vm_compute; reflexivity|reflexivity].
  - exists (ok_val (seen run3)). split; [apply (val_eq (seen run3)); vm_compute; reflexivity|vm_compute; reflexivity].
Qed.
