(** Specification vocabulary for the configuration properties (C01-C10), independent of the
    traversal functions of the model. *)
From Verif Require Import PyBase.

(** A path of string keys, as a user writes it ("emissions - carbonbudget"). *)
Definition path := list string.

(** Value stored in a nested dictionary at a path, if any. *)
Fixpoint lookup (v : pyval) (p : path) : option pyval :=
  match p with
  | [] => Some v
  | k :: r => match v with
              | VDict d => match dget d (KStr k) with Some x => lookup x r | None => None end
              | _ => None
              end
  end.

Fixpoint prefix_of (p q : path) : Prop :=
  match p, q with
  | [], _ => True
  | x :: p', y :: q' => x = y /\ prefix_of p' q'
  | _ :: _, [] => False
  end.

(** A template entry is a parameter when it has a "type" (or is not a section at all). *)
Definition is_param (node : pyval) : Prop :=
  match node with VDict d => exists t, In (KStr "type", t) d | _ => True end.

(** [param_at t p node]: the template [t] declares the parameter [node] at path [p]. *)
Inductive param_at : pyval -> path -> pyval -> Prop :=
| param_here d k node : In (KStr k, node) d -> is_param node -> param_at (VDict d) [k] node
| param_below d k sec p node : In (KStr k, sec) d -> ~ is_param sec -> param_at sec p node ->
    param_at (VDict d) (k :: p) node.

(** Entries of a parameter declaration. *)
Definition entry (node : pyval) (name : string) : option pyval :=
  match node with VDict d => dget d (KStr name) | _ => None end.
Definition has_type (node : pyval) (t : string) : Prop := entry node "type" = Some (VStr t).
Definition default_of (node : pyval) : pyval :=
  match entry node "default" with Some v => v | None => VNone end.
Definition may_be_false (node : pyval) : Prop :=
  exists v, entry node "can_be_false" = Some v /\ py_truth v = true.

(** Python dictionaries have pairwise different keys. *)
Fixpoint distinct_keys (v : pyval) : Prop :=
  match v with
  | VDict d =>
      NoDup (map fst d) /\
      (fix go (l : pydict) : Prop := match l with [] => True | (_, x) :: r => distinct_keys x /\ go r end) d
  | VList l => (fix go (l : list pyval) : Prop := match l with [] => True | x :: r => distinct_keys x /\ go r end) l
  | _ => True
  end.
(** All dictionary keys satisfy a predicate. *)
Fixpoint all_keys (P : key -> Prop) (v : pyval) : Prop :=
  match v with
  | VDict d =>
      (fix go (l : pydict) : Prop :=
         match l with [] => True | (k, x) :: r => P k /\ all_keys P x /\ go r end) d
  | _ => True
  end.
Definition string_key (k : key) : Prop := match k with KStr _ => True | KInt _ => False end.
(** a key in which " -" does not occur *)
Definition plain (s : string) : Prop := str_contains " -" s = false.
Definition plain_key (k : key) : Prop := match k with KStr s => plain s | KInt _ => False end.

(** The values python's parser regards as "false" (parsers.py 95-97). *)
Definition falsy_value (v : pyval) : Prop :=
  v = VBool false \/ v = VInt 0 \/ (exists q, v = VFloat (FFin q) /\ (q == 0)%Q) \/
  v = VStr "False" \/ v = VStr "false" \/ v = VStr "no".

(** Order on extended numbers; nan is not comparable. *)
Definition num_le (a b : pyfloat) : Prop :=
  match a, b with
  | FNaN, _ => False
  | _, FNaN => False
  | FNegInf, _ => True
  | _, FInf => True
  | FFin x, FFin y => (x <= y)%Q
  | _, _ => False
  end.
Definition numeric (v : pyval) (x : pyfloat) : Prop :=
  (exists z, v = VInt z /\ x = FFin (inject_Z z)) \/ v = VFloat x.
(** the bounds of a numeric parameter declaration *)
Definition lower_bound (node : pyval) (x : pyfloat) : Prop :=
  match entry node "min" with Some v => numeric v x /\ x <> FNaN | None => x = FNegInf end.
Definition upper_bound (node : pyval) (x : pyfloat) : Prop :=
  match entry node "max" with Some v => numeric v x /\ x <> FNaN | None => x = FInf end.

(** ** References "{section - key}" in string values *)
Fixpoint all_chars (P : ascii -> Prop) (s : string) : Prop :=
  match s with EmptyString => True | String c r => P c /\ all_chars P r end.
Definition no_brace (s : string) : Prop := all_chars (fun c => c <> "{"%char) s.
(** a path name: letters, digits, "_", " " and "-" only, not empty *)
Definition ref_name (m : string) : Prop :=
  m <> ""%string /\
  all_chars (fun c => let n := nat_of_ascii c in
     (48 <= n <= 57 \/ 65 <= n <= 90 \/ 97 <= n <= 122)%nat \/ c = "_"%char \/ c = " "%char \/ c = "-"%char) m.
Definition with_ref (pre m post : string) : string := (pre ++ "{" ++ m ++ "}" ++ post)%string.
