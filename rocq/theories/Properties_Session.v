(** Property theorems (generated by tools/gen_props.py from the proved lemmas; statements only). *)
From Verif Require Import PyBase Session SessionLemmas.
Import ListNotations.
Open Scope string_scope.

(** solve() returns normally exactly when the solver answered with status ok (and reading the NPV did not fail). *)
Theorem C49_returns_iff_status_ok : forall p str a w s,
  snd (solve p str a w s) = Returned <-> solver_answered p a w st_ok /\ w_npv w = Ok tt.
Proof. exact C49_returns_iff_status_ok_pf. Qed.
Print Assumptions C49_returns_iff_status_ok.

(** SolverException is raised exactly when the solver answered with another status, and carries the
    warning class exactly when that status is "warning". *)
Theorem C49_solver_exception_iff : forall p str a w s b,
  snd (solve p str a w s) = Raised (SolverException b) <->
  exists st, solver_answered p a w st /\ st <> st_ok /\ (b = true <-> st = st_warning).
Proof. exact C49_solver_exception_iff_pf. Qed.
Print Assumptions C49_solver_exception_iff.

(** An exception of the solver itself is let through unchanged, and leaves the status "not solved". *)
Theorem C49_solver_crash_propagates : forall p str a w s e,
  (use_neos a = true -> exists m, neos_email a = Some m) -> w_solver w = Err e ->
  snd (solve p str a w s) = Raised (Other e) /\ status (fst (solve p str a w s)) = None.
Proof. exact C49_solver_crash_propagates_pf. Qed.
Print Assumptions C49_solver_crash_propagates.

(** NEOS without an e-mail address: TypeError, and nothing is sent. *)
Theorem C49_neos_needs_email : forall p str a w s, use_neos a = true -> neos_email a = None ->
  snd (solve p str a w s) = Raised (Other TypeError) /\ requests (fst (solve p str a w s)) = requests s /\
  values (fst (solve p str a w s)) = values s.
Proof. exact C49_neos_needs_email_pf. Qed.
Print Assumptions C49_neos_needs_email.

(** A solve on NEOS leaves the address it was given in the environment variable NEOS_EMAIL; any other solve leaves the variable alone. *)
Theorem C49_neos_email_environment : forall p str a w s,
  environ_neos_email (fst (solve p str a w s)) =
  match use_neos a, neos_email a with true, Some e => Some e | _, _ => environ_neos_email s end.
Proof. exact C49_neos_email_environment_pf. Qed.
Print Assumptions C49_neos_email_environment.

(** Otherwise exactly one problem is sent, to the solver the user chose, with the options the user gave. *)
Theorem C49_one_request : forall p str a w s, (use_neos a = true -> exists e, neos_email a = Some e) ->
  exists q, requests (fst (solve p str a w s)) = (requests s ++ [q])%list /\
  (if use_neos a then exists e, neos_email a = Some e /\ q = Neos e "ipopt"
   else exists o, q = Local (verbose a) o /\
     forall k x, In (k, x) o <->
       (k = "halt_on_ampl_error" /\ x = halt_on_ampl_error a) \/
       (k = "max_iter" /\ exists n, ipopt_maxiter a = Some n /\ x = str n) \/
       (k = "output_file" /\ ipopt_output_file a = Some x)).
Proof. exact C49_one_request_pf. Qed.
Print Assumptions C49_one_request.

(** The termination condition plays no role: "ok" with any termination is success. *)
Theorem C49_termination_not_inspected : forall p str a s st t1 t2 v post pv npv,
  solve p str a {| w_solver := Ok (st, t1); w_values := v; w_post := post; w_post_values := pv; w_npv := npv |} s =
  solve p str a {| w_solver := Ok (st, t2); w_values := v; w_post := post; w_post_values := pv; w_npv := npv |} s.
Proof. exact C49_termination_not_inspected_pf. Qed.
Print Assumptions C49_termination_not_inspected.

(** In any history, the recorded status is the one the solver gave in the last solve, or None when that
    solve did not get an answer (also after an exception, and whatever is saved in between). *)
Theorem C49_status_is_last_solves : forall p u rnd pj md str before a w saves s st, Forall is_save saves ->
  (status (run p u rnd pj md str (before ++ Solve a w :: saves)%list s) = Some st <-> solver_answered p a w st) /\
  (status (run p u rnd pj md str (before ++ Solve a w :: saves)%list s) = None <-> forall st', ~ solver_answered p a w st').
Proof. exact C49_status_is_last_solves_pf. Qed.
Print Assumptions C49_status_is_last_solves.

(** Before the first solve the status is None. *)
Theorem C49_no_status_before_solving : forall p u rnd pj md str v fs env saves, Forall is_save saves ->
  status (run p u rnd pj md str saves (fresh v fs env)) = None.
Proof. exact C49_no_status_before_solving_pf. Qed.
Print Assumptions C49_no_status_before_solving.

(** A save that returns has written the table of the model's current values and the parameters, to
    two different files, and nothing else; it changes neither status nor values. *)
Theorem C53_save_writes_current_values : forall p u rnd pj md a w s text,
  (if hash_suffix a then pj = Ok text else text = "") ->
  snd (save p u rnd pj md a w s) = Returned ->
  let h := if hash_suffix a then md text else "" in
  let s' := fst (save p u rnd pj md a w s) in
  files s' (csv_path a h) = Some (Table (columns rnd p) (rows p u (values s))) /\
  (exists j, pj = Ok j /\ files s' (json_path a h) = Some (Json j)) /\
  (forall q, q <> csv_path a h -> q <> json_path a h -> files s' q = files s q) /\
  status s' = status s /\ values s' = values s /\ last_saved_filename s' = filename a.
Proof. exact C53_save_writes_current_values_pf. Qed.
Print Assumptions C53_save_writes_current_values.

(** In any history: after a successful solve and a later successful save (with only saves in between), the
    file holds that solve's solution until some later call writes to the same path, whatever else
    happens (later solves included). *)
Theorem C53_file_holds_the_solution : forall p u rnd pj md str before a w saves b z after text s,
  let run := run p u rnd pj md str in
  let s1 := run before s in
  let s2 := run (before ++ Solve a w :: saves)%list s in
  let h := if hash_suffix b then md text else "" in
  (if hash_suffix b then pj = Ok text else text = "") ->
  snd (solve p str a w s1) = Returned -> Forall is_save saves -> snd (save p u rnd pj md b z s2) = Returned ->
  Forall (spares md pj (csv_path b h)) after ->
  files (run (before ++ Solve a w :: saves ++ Save b z :: after)%list s) (csv_path b h)
  = Some (Table (columns rnd p) (rows p u (solution p w))).
Proof. exact C53_file_holds_the_solution_pf. Qed.
Print Assumptions C53_file_holds_the_solution.

(** A failed solve does not stop a save: the table then holds whatever values the failed solver left. *)
Theorem C53_unsolved_values_are_saved : forall p u rnd pj md str a w s b z st j,
  hash_suffix b = false -> pj = Ok j -> z = {| w_folder := Ok tt; w_csv := Ok tt; w_open := Ok tt; w_dump := Ok tt |} ->
  solver_answered p a w st -> st <> st_ok ->
  let s1 := fst (solve p str a w s) in
  snd (solve p str a w s) = Raised (SolverException (status_eqb st st_warning)) /\
  snd (save p u rnd pj md b z s1) = Returned /\
  files (fst (save p u rnd pj md b z s1)) (csv_path b "") = Some (Table (columns rnd p) (rows p u (solution p w))).
Proof. exact C53_unsolved_values_are_saved_pf. Qed.
Print Assumptions C53_unsolved_values_are_saved.

(** Saving without a file name writes "None.csv". *)
Theorem C53_default_file_name : forall h, csv_path (default_save None) h = "output/None.csv".
Proof. exact C53_default_file_name_pf. Qed.
Print Assumptions C53_default_file_name.
