(** Counterexamples to the unrestricted configuration properties, and non-vacuity examples. *)
From Verif Require Import PyBase NestedDict NestedDictFacts Parsers Config ConfigDefault ConfigFacts ConfigSpec ConfigBridge
  RefFacts ConfigLemmas.

(** an interpretation of the oracles in which every quantity parses *)
Definition ok_oracles : oracles := {| o_repr := fun _ => "?"; o_pint := fun _ _ => Ok 1%Q |}.

Definition d1 (k : string) (v : pyval) : pyval := VDict [(KStr k, v)].

Definition run (user : pyval) : result (pyval * ptree) := check_params ok_oracles config_default user.
Definition ok_res {A} (d : A) (r : result A) : A := match r with Ok a => a | Err _ => d end.
Definition out_of (user : pyval) : pyval := fst (ok_res (VNone, PNode []) (run user)).
Definition tree_of (user : pyval) : ptree := snd (ok_res (VNone, PNode []) (run user)).
Definition accepted (user : pyval) : bool := match run user with Ok _ => true | Err _ => false end.
Lemma run_ok user : accepted user = true -> run user = Ok (out_of user, tree_of user).
Proof. unfold accepted, out_of, tree_of. destruct (run user) as [[a b]|]; [reflexivity|discriminate]. Qed.

(** decidable "is a parameter path" *)
Fixpoint keys_eqb (a b : list key) : bool :=
  match a, b with [], [] => true | x :: a', y :: b' => key_eqb x y && keys_eqb a' b' | _, _ => false end.
Lemma keys_eqb_eq a b : keys_eqb a b = true <-> a = b.
Proof.
  revert b; induction a as [|x a IH]; intros [|y b]; simpl; try (split; congruence).
  rewrite andb_true_iff, IH, key_eqb_eq. split; [intros [-> ->]; reflexivity|intros H; inversion H; auto].
Qed.
Lemma not_param_path t p : all_keys string_key t ->
  existsb (fun l => keys_eqb (fst l) (keys_of p)) (leaves schema_leaf [] t) = false ->
  forall node, ~ param_at t p node.
Proof.
  intros Hk H node Hp. apply param_at_leaves with (pre := []) in Hp. rewrite <- not_true_iff_false, existsb_exists in H.
  apply H. exists (keys_of p, node). split; [exact Hp|]. apply keys_eqb_eq. reflexivity.
Qed.

(** an ordinary accepted configuration: carbon budget, another regime, a step of 10 years *)
Definition user_ex : pyval :=
  VDict [ (KStr "emissions", d1 "carbonbudget" (VStr "500 GtCO2"));
          (KStr "time", VDict [(KStr "dt", VInt 10); (KStr "end", VStr "2100")]) ].
Lemma user_ex_ok : run user_ex = Ok (out_of user_ex, tree_of user_ex).
Proof. apply run_ok. vm_compute. reflexivity. Qed.

Lemma C02_joined_name_ignored_refuted_pf :
  exists user p v out tree,
    distinct_keys user /\ lookup user p = Some v /\ is_dict v = false /\
    (forall q node, param_at config_default q node -> ~ prefix_of q p) /\
    check_params ok_oracles config_default user = Ok (out, tree) /\
    lookup out ["emissions"; "carbonbudget"] <> Some v.
Proof.
  set (u := d1 "emissions - carbonbudget" (VStr "500 GtCO2")).
  exists u, ["emissions - carbonbudget"], (VStr "500 GtCO2"), (out_of u), (tree_of u).
  split; [apply distinct_wfb; vm_compute; reflexivity|]. split; [reflexivity|]. split; [reflexivity|].
  split; [|split; [apply run_ok; vm_compute; reflexivity|vm_compute; congruence]].
  intros q node Hp Hpre. destruct q as [|s q]; [inversion Hp|]. destruct Hpre as [-> Hpre].
  destruct q; [|destruct Hpre]. revert Hp. apply not_param_path; [apply default_string|vm_compute; reflexivity].
Qed.

Lemma C03_nan_accepted_refuted_pf :
  exists user out tree node lo hi,
    param_at config_default ["time"; "dt"] node /\ has_type node "float" /\
    lower_bound node (FFin lo) /\ upper_bound node (FFin hi) /\
    check_params ok_oracles config_default user = Ok (out, tree) /\
    lookup out ["time"; "dt"] = Some (VFloat FNaN).
Proof.
  set (u := d1 "time" (d1 "dt" (VStr "nan"))).
  set (node := match lookup config_default ["time"; "dt"] with Some n => n | None => VNone end).
  exists u, (out_of u), (tree_of u), node,
    (match entry node "min" with Some (VInt z) => inject_Z z | Some (VFloat (FFin q)) => q | _ => 0%Q end),
    (match entry node "max" with Some (VInt z) => inject_Z z | Some (VFloat (FFin q)) => q | _ => 0%Q end).
  split.
  { assert (G : nth_error (filter (fun l => keys_eqb (fst l) (keys_of ["time"; "dt"]))
       (leaves schema_leaf [] config_default)) 0 = Some (keys_of ["time"; "dt"], node)) by (vm_compute; reflexivity).
    apply nth_error_In, filter_In in G. destruct G as [G _].
    destruct (leaves_param_at _ default_string _ _ _ G) as [p [E Hp]]. cbn [app] in E. apply keys_of_inj in E. subst p. exact Hp. }
  split; [vm_compute; reflexivity|].
  split; [vm_compute; split; [auto|congruence]; left; eexists; split; reflexivity|].
  split; [vm_compute; split; [auto|congruence]; left; eexists; split; reflexivity|].
  split; [apply run_ok; vm_compute; reflexivity|]. vm_compute. reflexivity.
Qed.

Lemma C06_zero_string_refuted_pf :
  exists user out tree,
    check_params ok_oracles config_default user = Ok (out, tree) /\
    lookup out ["emissions"; "inertia"; "regional"] = Some (VFloat (FFin 0)) /\
    exists out2 tree2, check_params ok_oracles config_default out = Ok (out2, tree2) /\
      lookup out2 ["emissions"; "inertia"; "regional"] = Some (VBool false).
Proof.
  set (u := d1 "emissions" (d1 "inertia" (d1 "regional" (VStr "0")))).
  exists u, (out_of u), (tree_of u).
  split; [apply run_ok; vm_compute; reflexivity|]. split; [vm_compute; reflexivity|].
  exists (out_of (out_of u)), (tree_of (out_of u)).
  split; [apply run_ok; vm_compute; reflexivity|vm_compute; reflexivity].
Qed.

(** with two references only the last one is resolved: the first stays in the string *)
Lemma C07_two_references_refuted_pf :
  exists params params',
    distinct_keys params /\
    lookup params ["a"] = Some (VStr "x") /\ lookup params ["b"] = Some (VStr "y") /\
    lookup params ["c"] = Some (VStr "{a}-{b}") /\
    parse_param_values params = Ok params' /\
    lookup params' ["c"] = Some (VStr "{a}-y").
Proof.
  exists (VDict [(KStr "a", VStr "x"); (KStr "b", VStr "y"); (KStr "c", VStr "{a}-{b}")]).
  eexists. split; [apply distinct_wfb; vm_compute; reflexivity|]. repeat (split; [reflexivity|]).
  vm_compute. reflexivity.
Qed.

(** non-vacuity *)
Example C01_ex : lookup (out_of user_ex) ["emissions"; "carbonbudget"] = Some (VStr "500 GtCO2")
  /\ lookup (out_of user_ex) ["time"; "dt"] = Some (VFloat (FFin 10)).
Proof. vm_compute. split; reflexivity. Qed.
Example C02_ex : run (d1 "emissions" (d1 "carbonbudgett" (VStr "500 GtCO2"))) = Err RuntimeWarning.
Proof. vm_compute. reflexivity. Qed.
Example C03_ex : run (d1 "time" (d1 "dt" (VInt 1000))) = Err ValueError.
Proof. vm_compute. reflexivity. Qed.
Example C05_ex : lookup (out_of (d1 "emissions" (d1 "carbonbudget" (VStr "no")))) ["emissions"; "carbonbudget"] = Some (VBool false).
Proof. vm_compute. reflexivity. Qed.
Example C06_ex : run (out_of user_ex) = Ok (out_of user_ex, tree_of user_ex).
Proof. vm_compute. reflexivity. Qed.
Example C07_ex : parse_param_values (VDict [(KStr "s", VStr "SSP2"); (KStr "n", d1 "f" (VStr "x-{s}.csv"))])
  = Ok (VDict [(KStr "s", VStr "SSP2"); (KStr "n", d1 "f" (VStr "x-SSP2.csv"))]).
Proof. vm_compute. reflexivity. Qed.
Example C09_ex : parse_default_units "emissionsrate_unit" = "((GtCO2)/yr)".
Proof. vm_compute. reflexivity. Qed.
