(** C49 (solve) and C53 (save): theorems over all histories of calls. *)
From Verif Require Import PyBase Session BuildFacts.
From Coq Require Import Lia.
Import ListNotations.
Open Scope string_scope.

(** *** Specification *)
(** The solver answered with status [st], and the solution was written back to the model. *)
Definition solver_answered (p : pars) (a : solve_args) (w : solve_world) (st : solver_status) : Prop :=
  (use_neos a = true -> exists e, neos_email a = Some e) /\
  (exists termination, w_solver w = Ok (st, termination)) /\
  ((1 < List.length (regions p))%nat -> w_post w = Ok tt).
(** The variable values the user finds in the model after a solver answer. *)
Definition solution (p : pars) (w : solve_world) : point :=
  match regions p with _ :: _ :: _ => w_post_values w | _ => w_values w end.
Definition is_save (c : call) : Prop := match c with Save _ _ => True | Solve _ _ => False end.
(** A call that does not write to [path]. *)
Definition spares (md5_9 : string -> string) (params_json : result string) (path : string) (c : call) : Prop :=
  match c with
  | Solve _ _ => True
  | Save b _ =>
      forall text, (if hash_suffix b then params_json = Ok text else text = "") ->
      let h := if hash_suffix b then md5_9 text else "" in
      csv_path b h <> path /\ json_path b h <> path
  end.

Lemma multi_spec (p : pars) : Nat.ltb 1 (List.length (regions p)) = match regions p with _ :: _ :: _ => true | _ => false end.
Proof. destruct (regions p) as [|x [|y l]]; reflexivity. Qed.
Lemma status_eqb_eq a b : status_eqb a b = true <-> a = b.
Proof. destruct a, b; cbn; split; intros H; try reflexivity; discriminate H. Qed.

(** [solve] by cases, in terms of the specification. *)
Lemma solve_cases p sn a w s :
  let r := solve p sn a w s in
  (exists st, solver_answered p a w st /\ status (fst r) = Some st /\ values (fst r) = solution p w /\
     snd r = (if negb (status_eqb st st_ok) then Raised (SolverException (status_eqb st st_warning))
              else match w_npv w with Ok _ => Returned | Err e => Raised (Other e) end))
  \/ ((forall st, ~ solver_answered p a w st) /\ status (fst r) = None /\ exists e, snd r = Raised (Other e)).
Proof.
  unfold solve, solver_answered, solution. rewrite multi_spec.
  assert (ML : (1 < List.length (regions p))%nat <-> match regions p with _ :: _ :: _ => true | _ => false end = true).
  { destruct (regions p) as [|x [|y l]]; cbn; split; intros; try lia; try discriminate; reflexivity. }
  destruct (use_neos a) eqn:U.
  - destruct (neos_email a) as [em|] eqn:E.
    + destruct (w_solver w) as [[st tm]|e] eqn:S.
      * destruct (regions p) as [|x [|y l]] eqn:G.
        1,2: left; exists st; split; [split; [eauto|split; [eauto|]]|]; [cbn; intros; lia|];
          destruct (status_eqb st st_ok); cbn; [destruct (w_npv w); cbn|]; auto.
        destruct (w_post w) as [[]|e] eqn:P.
        -- left; exists st; split; [split; [eauto|split; [eauto|auto]]|].
           destruct (status_eqb st st_ok); cbn; [destruct (w_npv w); cbn|]; auto.
        -- right. split; [|cbn; eauto]. intros st' (_ & _ & H). assert (D : Err e = Ok tt) by (apply H; cbn; lia). discriminate D.
      * right. split; [|cbn; eauto]. intros st' (_ & (t & H) & _). discriminate H.
    + right. split; [|cbn; eauto]. intros st' (H & _). destruct (H eq_refl) as [x H']. discriminate H'.
  - destruct (w_solver w) as [[st tm]|e] eqn:S.
    + destruct (regions p) as [|x [|y l]] eqn:G.
      1,2: left; exists st; split; [split; [intros D; discriminate D|split; [eauto|]]|]; [cbn; intros; lia|];
        destruct (status_eqb st st_ok); cbn; [destruct (w_npv w); cbn|]; auto.
      destruct (w_post w) as [[]|e] eqn:P.
      * left; exists st; split; [split; [intros D; discriminate D|split; [eauto|auto]]|].
        destruct (status_eqb st st_ok); cbn; [destruct (w_npv w); cbn|]; auto.
      * right. split; [|cbn; eauto]. intros st' (_ & _ & H). assert (D : Err e = Ok tt) by (apply H; cbn; lia). discriminate D.
    + right. split; [|cbn; eauto]. intros st' (_ & (t & H) & _). discriminate H.
Qed.

Lemma answered_fun p a w st st' : solver_answered p a w st -> solver_answered p a w st' -> st = st'.
Proof. intros (_ & (t & H) & _) (_ & (t' & H') & _). rewrite H in H'. injection H'; auto. Qed.

(** solve() returns normally exactly when the solver answered with status ok (and reading the NPV did not fail). *)
Lemma C49_returns_iff_status_ok_pf : forall p str a w s,
  snd (solve p str a w s) = Returned <-> solver_answered p a w st_ok /\ w_npv w = Ok tt.
Proof.
  intros p str a w s. destruct (solve_cases p str a w s) as [(st & A & _ & _ & O)|(N & _ & e & O)]; rewrite O.
  - split.
    + destruct (status_eqb st st_ok) eqn:E; cbn; [|discriminate]. apply status_eqb_eq in E. subst st.
      destruct (w_npv w) as [[]|]; [auto|discriminate].
    + intros (B & W). rewrite (answered_fun _ _ _ _ _ A B), W. reflexivity.
  - split; [discriminate|]. intros (B & _). destruct (N _ B).
Qed.
(** SolverException is raised exactly when the solver answered with another status, and carries the
    warning class exactly when that status is "warning". *)
Lemma C49_solver_exception_iff_pf : forall p str a w s b,
  snd (solve p str a w s) = Raised (SolverException b) <->
  exists st, solver_answered p a w st /\ st <> st_ok /\ (b = true <-> st = st_warning).
Proof.
  intros p str a w s b. destruct (solve_cases p str a w s) as [(st & A & _ & _ & O)|(N & _ & e & O)]; rewrite O.
  - split.
    + destruct (status_eqb st st_ok) eqn:E; cbn; [destruct (w_npv w); discriminate|]. intros H. injection H as <-.
      exists st. split; [exact A|split; [|apply status_eqb_eq]]. intros ->. discriminate E.
    + intros (st' & B & Nk & Q). pose proof (answered_fun _ _ _ _ _ A B) as ->.
      destruct (status_eqb st' st_ok) eqn:E; cbn; [apply status_eqb_eq in E; contradiction|]. f_equal. f_equal.
      destruct b, (status_eqb st' st_warning) eqn:V; auto.
      * destruct Q as [Q _]. specialize (Q eq_refl). apply status_eqb_eq in Q. congruence.
      * apply status_eqb_eq in V. apply Q in V. discriminate V.
  - split; [discriminate|]. intros (st' & B & _). destruct (N _ B).
Qed.
(** An exception of the solver itself is let through unchanged, and leaves the status "not solved". *)
Lemma C49_solver_crash_propagates_pf : forall p str a w s e,
  (use_neos a = true -> exists m, neos_email a = Some m) -> w_solver w = Err e ->
  snd (solve p str a w s) = Raised (Other e) /\ status (fst (solve p str a w s)) = None.
Proof.
  intros p str a w s e H W. unfold solve. destruct (use_neos a).
  - destruct (H eq_refl) as [m ->]. rewrite W. auto.
  - rewrite W. auto.
Qed.
(** NEOS without an e-mail address: TypeError, and nothing is sent. *)
Lemma C49_neos_needs_email_pf : forall p str a w s, use_neos a = true -> neos_email a = None ->
  snd (solve p str a w s) = Raised (Other TypeError) /\ requests (fst (solve p str a w s)) = requests s /\
  values (fst (solve p str a w s)) = values s.
Proof. intros p str a w s U E. unfold solve. rewrite U, E. auto. Qed.
(** A solve on NEOS leaves the address it was given in the environment variable NEOS_EMAIL; any other solve leaves the variable alone. *)
Lemma C49_neos_email_environment_pf : forall p str a w s,
  environ_neos_email (fst (solve p str a w s)) =
  match use_neos a, neos_email a with true, Some e => Some e | _, _ => environ_neos_email s end.
Proof.
  intros p str a w s. unfold solve. destruct (use_neos a); [destruct (neos_email a); [|reflexivity]|];
    (destruct (w_solver w) as [[st tm]|]; [|reflexivity]); (destruct (Nat.ltb 1 (List.length (regions p))); cbn; [destruct (w_post w); cbn|]);
      try reflexivity; (destruct (status_eqb st st_ok); cbn; try reflexivity); destruct (w_npv w); reflexivity.
Qed.
(** Otherwise exactly one problem is sent, to the solver the user chose, with the options the user gave. *)
Lemma C49_one_request_pf : forall p str a w s, (use_neos a = true -> exists e, neos_email a = Some e) ->
  exists q, requests (fst (solve p str a w s)) = (requests s ++ [q])%list /\
  (if use_neos a then exists e, neos_email a = Some e /\ q = Neos e "ipopt"
   else exists o, q = Local (verbose a) o /\
     forall k x, In (k, x) o <->
       (k = "halt_on_ampl_error" /\ x = halt_on_ampl_error a) \/
       (k = "max_iter" /\ exists n, ipopt_maxiter a = Some n /\ x = str n) \/
       (k = "output_file" /\ ipopt_output_file a = Some x)).
Proof.
  intros p str a w s H. unfold solve. destruct (use_neos a) eqn:U.
  - destruct (H eq_refl) as [e E]. rewrite E. exists (Neos e "ipopt"). split; [|eauto].
    destruct (w_solver w) as [[st tm]|]; [|reflexivity]. destruct (Nat.ltb 1 (List.length (regions p))); cbn; [destruct (w_post w); cbn|];
      try reflexivity; destruct (status_eqb st st_ok); cbn; try reflexivity; destruct (w_npv w); reflexivity.
  - exists (Local (verbose a) (ipopt_options str a)). split.
    + destruct (w_solver w) as [[st tm]|]; [|reflexivity]. destruct (Nat.ltb 1 (List.length (regions p))); cbn; [destruct (w_post w); cbn|];
        try reflexivity; destruct (status_eqb st st_ok); cbn; try reflexivity; destruct (w_npv w); reflexivity.
    + exists (ipopt_options str a). split; [reflexivity|]. intros k x. unfold ipopt_options. cbn [In].
      rewrite in_app_iff. split.
      * intros [E|[I|I]].
        -- injection E as <- <-. auto.
        -- destruct (ipopt_maxiter a) as [n|]; [|destruct I]. destruct I as [E|[]]. injection E as <- <-. right. left. eauto.
        -- destruct (ipopt_output_file a) as [n|]; [|destruct I]. destruct I as [E|[]]. injection E as <- <-. right. right. auto.
      * intros [(-> & ->)|[(-> & n & E & ->)|(-> & E)]]; [auto| |]; rewrite E; cbn; auto.
Qed.
(** The termination condition plays no role: "ok" with any termination is success. *)
Lemma C49_termination_not_inspected_pf : forall p str a s st t1 t2 v post pv npv,
  solve p str a {| w_solver := Ok (st, t1); w_values := v; w_post := post; w_post_values := pv; w_npv := npv |} s =
  solve p str a {| w_solver := Ok (st, t2); w_values := v; w_post := post; w_post_values := pv; w_npv := npv |} s.
Proof. reflexivity. Qed.

Lemma save_frame p u rnd pj md a w s :
  let r := fst (save p u rnd pj md a w s) in
  status r = status s /\ values r = values s /\ environ_neos_email r = environ_neos_email s /\ requests r = requests s /\
  last_saved_filename r = filename a.
Proof.
  unfold save. destruct (if hash_suffix a then pj else Ok ""); [|cbn; auto].
  destruct (w_folder w); [|cbn; auto]. destruct (w_csv w); [|cbn; auto 8]. destruct (w_open w); [|cbn; auto 8].
  destruct (do j <- pj; do _ <- w_dump w; Ok j); cbn; auto 8.
Qed.
Lemma run_app p u rnd pj md str h1 h2 s :
  run p u rnd pj md str (h1 ++ h2)%list s = run p u rnd pj md str h2 (run p u rnd pj md str h1 s).
Proof. revert s. induction h1; intros; cbn; auto. Qed.
Lemma saves_frame p u rnd pj md str h : Forall is_save h -> forall s,
  status (run p u rnd pj md str h s) = status s /\ values (run p u rnd pj md str h s) = values s.
Proof.
  induction 1 as [|c h C _ IH]; intros s; [auto|]. destruct c as [|a w]; [destruct C|]. cbn [run step].
  destruct (IH (fst (save p u rnd pj md a w s))) as [-> ->]. pose proof (save_frame p u rnd pj md a w s) as F. cbn zeta in F. tauto.
Qed.
(** In any history, the recorded status is the one the solver gave in the last solve, or None when that
    solve did not get an answer (also after an exception, and whatever is saved in between). *)
Lemma C49_status_is_last_solves_pf : forall p u rnd pj md str before a w saves s st, Forall is_save saves ->
  (status (run p u rnd pj md str (before ++ Solve a w :: saves)%list s) = Some st <-> solver_answered p a w st) /\
  (status (run p u rnd pj md str (before ++ Solve a w :: saves)%list s) = None <-> forall st', ~ solver_answered p a w st').
Proof.
  intros p u rnd pj md str before a w saves s st F. rewrite run_app. cbn [run step].
  set (s1 := run p u rnd pj md str before s). destruct (saves_frame p u rnd pj md str saves F (fst (solve p str a w s1))) as [-> _].
  destruct (solve_cases p str a w s1) as [(st1 & A & -> & _)|(N & -> & _)].
  - split; split.
    + intros E. injection E as <-. exact A.
    + intros B. f_equal. apply (answered_fun _ _ _ _ _ A B).
    + discriminate.
    + intros N. destruct (N _ A).
  - split; split.
    + discriminate.
    + intros A. destruct (N _ A).
    + auto.
    + auto.
Qed.
(** Before the first solve the status is None. *)
Lemma C49_no_status_before_solving_pf : forall p u rnd pj md str v fs env saves, Forall is_save saves ->
  status (run p u rnd pj md str saves (fresh v fs env)) = None.
Proof. intros p u rnd pj md str v fs env saves F. destruct (saves_frame p u rnd pj md str saves F (fresh v fs env)) as [-> _]. reflexivity. Qed.

(** *** C53: save *)
Lemma suffix_neq s t : s ++ ".csv" <> t ++ ".params.json".
Proof.
  intros E.
  assert (LA : forall a b, String.length (a ++ b) = (String.length a + String.length b)%nat) by (induction a; intros; cbn; auto).
  assert (G : forall a b n, String.get (String.length a + n) (a ++ b) = String.get n b) by (induction a; intros; cbn; auto).
  assert (L := f_equal String.length E). rewrite !LA in L. cbn in L.
  pose proof (G s ".csv" 3%nat) as A. rewrite E in A. replace (String.length s + 3)%nat with (String.length t + 11)%nat in A by lia.
  rewrite G in A. discriminate A.
Qed.
Lemma csv_json_neq a h b k : csv_path a h <> json_path b k.
Proof.
  unfold json_path. unfold csv_path at 1. intros E. apply (suffix_neq (folder a ++ "/" ++ stem a h) (csv_path b k)). rewrite <- E.
  assert (AS : forall x y z : string, (x ++ y) ++ z = x ++ y ++ z) by (induction x; intros; cbn; congruence).
  now rewrite !AS.
Qed.
Lemma write_same fs q c : write fs q c q = Some c.
Proof. unfold write. now rewrite String.eqb_refl. Qed.
Lemma write_other fs q c r : r <> q -> write fs q c r = fs r.
Proof. unfold write. intros H. apply String.eqb_neq in H. now rewrite H. Qed.

(** A save that returns has written the table of the model's current values and the parameters, to
    two different files, and nothing else; it changes neither status nor values. *)
Lemma C53_save_writes_current_values_pf : forall p u rnd pj md a w s text,
  (if hash_suffix a then pj = Ok text else text = "") ->
  snd (save p u rnd pj md a w s) = Returned ->
  let h := if hash_suffix a then md text else "" in
  let s' := fst (save p u rnd pj md a w s) in
  files s' (csv_path a h) = Some (Table (columns rnd p) (rows p u (values s))) /\
  (exists j, pj = Ok j /\ files s' (json_path a h) = Some (Json j)) /\
  (forall q, q <> csv_path a h -> q <> json_path a h -> files s' q = files s q) /\
  status s' = status s /\ values s' = values s /\ last_saved_filename s' = filename a.
Proof.
  intros p u rnd pj md a w s text T O. cbn zeta. unfold save in *.
  assert (T' : (if hash_suffix a then pj else Ok "") = Ok text) by (destruct (hash_suffix a); [exact T|rewrite T; reflexivity]).
  rewrite T' in *. set (h := if hash_suffix a then md text else "") in *.
  destruct (w_folder w); [|discriminate O]. destruct (w_csv w); [|discriminate O]. destruct (w_open w); [|discriminate O].
  destruct pj as [j|]; [|discriminate O]. cbn [bind] in *. destruct (w_dump w); [|discriminate O]. cbn [bind fst files set_files status values last_saved_filename] in *.
  split; [|split; [|split]].
  - rewrite write_other by apply csv_json_neq. apply write_same.
  - exists j. split; [reflexivity|]. apply write_same.
  - intros q A B. rewrite write_other by exact B. now apply write_other.
  - auto.
Qed.
Lemma spares_run p u rnd pj md str q h : Forall (spares md pj q) h -> forall s,
  files (run p u rnd pj md str h s) q = files s q.
Proof.
  induction 1 as [|c h C _ IH]; intros s; [reflexivity|]. cbn [run]. rewrite IH. destruct c as [a w|a w]; cbn [step].
  - unfold solve. destruct (use_neos a); [destruct (neos_email a); [|reflexivity]|];
    (destruct (w_solver w) as [[st tm]|]; [|reflexivity]; destruct (Nat.ltb 1 (List.length (regions p))); cbn; [destruct (w_post w); cbn|];
        try reflexivity; destruct (status_eqb st st_ok); cbn; try reflexivity; destruct (w_npv w); reflexivity).
  - unfold save. cbn in C. destruct (if hash_suffix a then pj else Ok "") as [text|] eqn:T; [|reflexivity].
    assert (C' : let h := if hash_suffix a then md text else "" in csv_path a h <> q /\ json_path a h <> q).
    { apply C. destruct (hash_suffix a); [exact T|injection T; auto]. }
    cbn zeta in C'. set (k := if hash_suffix a then md text else "") in *. destruct C' as [C1 C2].
    destruct (w_folder w); [|reflexivity]. destruct (w_csv w); [|cbn; rewrite write_other by congruence; reflexivity].
    destruct (w_open w); [|cbn; rewrite write_other by congruence; reflexivity].
    destruct (do j <- pj; do _ <- w_dump w; Ok j); cbn; rewrite !write_other by congruence; reflexivity.
Qed.
(** In any history: after a successful solve and a later successful save (with only saves in between), the
    file holds that solve's solution until some later call writes to the same path, whatever else
    happens (later solves included). *)
Lemma C53_file_holds_the_solution_pf : forall p u rnd pj md str before a w saves b z after text s,
  let run := run p u rnd pj md str in
  let s1 := run before s in
  let s2 := run (before ++ Solve a w :: saves)%list s in
  let h := if hash_suffix b then md text else "" in
  (if hash_suffix b then pj = Ok text else text = "") ->
  snd (solve p str a w s1) = Returned -> Forall is_save saves -> snd (save p u rnd pj md b z s2) = Returned ->
  Forall (spares md pj (csv_path b h)) after ->
  files (run (before ++ Solve a w :: saves ++ Save b z :: after)%list s) (csv_path b h)
  = Some (Table (columns rnd p) (rows p u (solution p w))).
Proof.
  intros p u rnd pj md str before a w saves b z after text s run s1 s2 h T O F O2 SP. unfold run.
  replace (before ++ Solve a w :: saves ++ Save b z :: after)%list with ((before ++ Solve a w :: saves) ++ Save b z :: after)%list
    by (rewrite <- app_assoc; reflexivity).
  rewrite run_app. cbn [Session.run step]. rewrite spares_run by exact SP.
  change (Session.run p u rnd pj md str (before ++ Solve a w :: saves)%list s) with s2.
  destruct (C53_save_writes_current_values_pf p u rnd pj md b z s2 text T O2) as (W & _). cbn zeta in W. fold h in W. rewrite W. do 3 f_equal.
  unfold s2, run. rewrite run_app. cbn [Session.run step]. destruct (saves_frame p u rnd pj md str saves F (fst (solve p str a w s1))) as [_ V].
  unfold s1, run in V. rewrite V. unfold s1, run in O.
  destruct (solve_cases p str a w (Session.run p u rnd pj md str before s)) as [(st & _ & _ & E & _)|(_ & _ & e & E)]; [exact E|].
  rewrite E in O. discriminate O.
Qed.
(** A failed solve does not stop a save: the table then holds whatever values the failed solver left. *)
Lemma C53_unsolved_values_are_saved_pf : forall p u rnd pj md str a w s b z st j,
  hash_suffix b = false -> pj = Ok j -> z = {| w_folder := Ok tt; w_csv := Ok tt; w_open := Ok tt; w_dump := Ok tt |} ->
  solver_answered p a w st -> st <> st_ok ->
  let s1 := fst (solve p str a w s) in
  snd (solve p str a w s) = Raised (SolverException (status_eqb st st_warning)) /\
  snd (save p u rnd pj md b z s1) = Returned /\
  files (fst (save p u rnd pj md b z s1)) (csv_path b "") = Some (Table (columns rnd p) (rows p u (solution p w))).
Proof.
  intros p u rnd pj md str a w s b z st j H J Z A N s1. unfold s1.
  destruct (solve_cases p str a w s) as [(st1 & A1 & _ & V & O)|(K & _)]; [|destruct (K _ A)].
  pose proof (answered_fun _ _ _ _ _ A1 A) as ->.
  assert (E : status_eqb st st_ok = false) by (destruct (status_eqb st st_ok) eqn:E; [apply status_eqb_eq in E; contradiction|reflexivity]).
  rewrite E in O. split; [exact O|].
  assert (R : snd (save p u rnd pj md b z (fst (solve p str a w s))) = Returned).
  { subst z pj. unfold save. rewrite H. reflexivity. }
  split; [exact R|].
  pose proof (C53_save_writes_current_values_pf p u rnd pj md b z (fst (solve p str a w s)) "") as W. rewrite H in W.
  destruct (W eq_refl R) as (F & _). rewrite F, V. reflexivity.
Qed.
(** Saving without a file name writes "None.csv". *)
Lemma C53_default_file_name_pf : forall h, csv_path (default_save None) h = "output/None.csv".
Proof. reflexivity. Qed.
