(** mimosa/mimosa.py 142-221 and export/save.py 15-42: a MIMOSA object over any history of
    [solve] and [save] calls.

    The outside world (ipopt or the NEOS server, pyomo's aggregated-variable update, the disk) is an
    answer attached to every call, so theorems over all histories are theorems over all behaviours of
    the solver and the disk.
    Simplifications: the values of all variables are one [point] (after preprocessing every variable
    has a value: contrib.init_vars_midpoint gives one to each unfixed variable); a written table is the
    data frame before its numbers are printed with six significant digits; log and console output are
    not modelled; the keyword arguments are those in the signatures. *)
From Verif Require Import PyBase.
From Verif Require Export Export.
Import ListNotations.
Open Scope string_scope.

(** pyomo.opt.SolverStatus *)
Inductive solver_status := st_ok | st_warning | st_error | st_aborted | st_unknown.
Definition status_eqb (a b : solver_status) : bool :=
  match a, b with
  | st_ok, st_ok | st_warning, st_warning | st_error, st_error | st_aborted, st_aborted | st_unknown, st_unknown => true
  | _, _ => false end.

(** What a call raises: [SolverException msg cls] is mimosa.py 231 with its second argument (the
    warning class) if present; [Other] any exception of a library, let through. *)
Inductive raised := SolverException (warning_class : bool) | Other (e : exn).
Inductive outcome := Returned | Raised (e : raised).

(** mimosa.py 150-158: the arguments of solve *)
Record solve_args := {
  verbose : bool; halt_on_ampl_error : string; use_neos : bool; neos_email : option string;
  ipopt_output_file : option string; ipopt_maxiter : option nat }.
(** The defaults of mimosa.py 150-158 *)
Definition default_solve : solve_args :=
  {| verbose := true; halt_on_ampl_error := "no"; use_neos := false; neos_email := None;
     ipopt_output_file := None; ipopt_maxiter := None |}.

(** What the solver sees *)
Inductive request :=
| Local (tee : bool) (options : list (string * string)) | Neos (email : string) (opt : string).

(** What the world does with a solve: the solver call raises (possibly after loading some values), or it
    answers with a status and a termination condition and loads values; then the update of aggregated
    variables (mimosa.py 142-147) and the reading of the NPV (mimosa.py 213-217) succeed or raise. *)
Record solve_world := {
  w_solver : result (solver_status * string);   (* status, termination condition *)
  w_values : point;                              (* variable values after the solver call *)
  w_post : result unit; w_post_values : point;   (* contrib.aggregate_vars.update_variables *)
  w_npv : result unit }.

(** What the world does with a save: json.dumps for the hash, creating the folder and writing the table,
    writing the parameter file (opened, i.e. emptied, first). *)
Record save_world := { w_folder : result unit; w_csv : result unit; w_open : result unit; w_dump : result unit }.

(** mimosa.py 219 and save.py 15 *)
Record save_args := { filename : option string; hash_suffix : bool; folder : string }.
Definition default_save (f : option string) : save_args := {| filename := f; hash_suffix := false; folder := "output" |}.

Inductive content := Table (header : list string) (body : list row) | Json (text : string) | Truncated.

Record session := {
  status : option solver_status; last_saved_filename : option string; values : point;
  environ_neos_email : option string; files : string -> option content; requests : list request }.

Definition write (fs : string -> option content) (path : string) (c : content) : string -> option content :=
  fun q => if String.eqb q path then Some c else fs q.

Section Session.
  Variables (p : pars) (unit_of : string -> string) (rnd : R -> Z).
  (** json.dumps(params) and hashlib.md5(...).hexdigest()[:9] of the object's parameters *)
  Variables (params_json : result string) (md5_9 : string -> string).
  (** the result of [str(max_iter)] as ipopt option text *)
  Variable str_of_nat : nat -> string.

  (** mimosa.py 51-63: the object after the constructor, [v0] being the values after preprocessing *)
  Definition fresh (v0 : point) (fs : string -> option content) (neos : option string) : session :=
    {| status := None; last_saved_filename := None; values := v0; environ_neos_email := neos; files := fs; requests := [] |}.

  (** mimosa.py 183-191 *)
  Definition ipopt_options (a : solve_args) : list (string * string) :=
    (("halt_on_ampl_error", halt_on_ampl_error a)
     :: match ipopt_maxiter a with Some n => [("max_iter", str_of_nat n)] | None => [] end
     ++ match ipopt_output_file a with Some f => [("output_file", f)] | None => [] end)%list.

  (** mimosa.py 149-217 *)
  Definition solve (a : solve_args) (w : solve_world) (s : session) : session * outcome :=
    (* 172 *)
    let s := {| status := None; last_saved_filename := last_saved_filename s; values := values s;
                environ_neos_email := environ_neos_email s; files := files s; requests := requests s |} in
    (* 174-191; os.environ[...] = None raises TypeError *)
    let ask (q : request) (env : option string) : session * outcome :=
      let s := {| status := status s; last_saved_filename := last_saved_filename s; values := w_values w;
                  environ_neos_email := env; files := files s; requests := (requests s ++ [q])%list |} in
      match w_solver w with
      | Err e => (s, Raised (Other e))
      | Ok (st, term) =>
          (* 195, 142-147 *)
          let multi := Nat.ltb 1 (List.length (regions p)) in
          let s := {| status := status s; last_saved_filename := last_saved_filename s;
                      values := if multi then w_post_values w else values s;
                      environ_neos_email := environ_neos_email s; files := files s; requests := requests s |} in
          match (if multi then w_post w else Ok tt) with
          | Err e => (s, Raised (Other e))
          | Ok _ =>
              (* 199 *)
              let s := {| status := Some st; last_saved_filename := last_saved_filename s; values := values s;
                          environ_neos_email := environ_neos_email s; files := files s; requests := requests s |} in
              (* 201-217 *)
              if negb (status_eqb st st_ok) then (s, Raised (SolverException (status_eqb st st_warning)))
              else match w_npv w with Ok _ => (s, Returned) | Err e => (s, Raised (Other e)) end
          end
      end in
    if use_neos a then
      match neos_email a with
      | None => (s, Raised (Other TypeError))
      | Some e => ask (Neos e "ipopt") (Some e)
      end
    else ask (Local (verbose a) (ipopt_options a)) (environ_neos_email s).

  (** save.py 34-36, 41: the paths, f"{experiment}" of None being "None" *)
  Definition stem (a : save_args) (hash : string) : string :=
    let n := match filename a with Some f => f | None => "None" end in
    if hash_suffix a then n ++ "_" ++ hash else n.
  Definition csv_path (a : save_args) (hash : string) : string := folder a ++ "/" ++ stem a hash ++ ".csv".
  Definition json_path (a : save_args) (hash : string) : string := csv_path a hash ++ ".params.json".

  Definition set_files (s : session) (fs : string -> option content) : session :=
    {| status := status s; last_saved_filename := last_saved_filename s; values := values s;
       environ_neos_email := environ_neos_email s; files := fs; requests := requests s |}.

  (** mimosa.py 219-221, save.py 15-42.  An interrupted write leaves a truncated file. *)
  Definition save (a : save_args) (w : save_world) (s : session) : session * outcome :=
    (* mimosa.py 220 *)
    let s := {| status := status s; last_saved_filename := filename a; values := values s;
                environ_neos_email := environ_neos_email s; files := files s; requests := requests s |} in
    (* save.py 17-20 *)
    match (if hash_suffix a then params_json else Ok "") with
    | Err e => (s, Raised (Other e))
    | Ok text =>
        let hash := if hash_suffix a then md5_9 text else "" in
        (* 23-28 *)
        let table := Table (columns rnd p) (rows p unit_of (values s)) in
        (* 33 *)
        match w_folder w with
        | Err e => (s, Raised (Other e))
        | Ok _ =>
            (* 34-37 *)
            match w_csv w with
            | Err e => (set_files s (write (files s) (csv_path a hash) Truncated), Raised (Other e))
            | Ok _ =>
                let s := set_files s (write (files s) (csv_path a hash) table) in
                (* 41-42 *)
                match w_open w with
                | Err e => (s, Raised (Other e))
                | Ok _ =>
                    match (do j <- params_json; do _ <- w_dump w; Ok j) with
                    | Err e => (set_files s (write (files s) (json_path a hash) Truncated), Raised (Other e))
                    | Ok j => (set_files s (write (files s) (json_path a hash) (Json j)), Returned)
                    end
                end
            end
        end
    end.

  (** A history of calls; an exception ends the call, not the object. *)
  Inductive call := Solve (a : solve_args) (w : solve_world) | Save (a : save_args) (w : save_world).
  Definition step (c : call) (s : session) : session * outcome :=
    match c with Solve a w => solve a w s | Save a w => save a w s end.
  Fixpoint run (h : list call) (s : session) : session :=
    match h with [] => s | c :: h => run h (fst (step c s)) end.
End Session.
