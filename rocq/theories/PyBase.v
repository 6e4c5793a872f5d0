(** Python values, exceptions and the few built-in operations the code uses.

    This file models python itself (CPython semantics), not a file of /repo; each operation is
    introduced because a cited line of /repo uses it.  Simplifications, all on the python side:
    - a finite float is an exact rational (no rounding); a float literal or conversion whose
      magnitude is at least 2^1024 - 2^970 becomes an infinity, as in IEEE round-to-nearest;
    - dictionary keys are strings or ints; dictionaries are insertion-ordered association lists;
    - strings are byte strings, character classes are the ASCII ones. *)
From Coq Require Export ZArith QArith List String Ascii Bool.
From Coq Require Import DecimalString DecimalZ.
Export ListNotations.
Open Scope string_scope.
Open Scope list_scope.

(** Exceptions that the modelled code can raise or lets through. [PintError] stands for the four
    pint exception classes caught in parsers.py 281-286. *)
Inductive exn :=
| KeyError | TypeError | ValueError | AttributeError | ZeroDivisionError | NotImplementedError
| RuntimeError | RuntimeWarning | IndexError | OverflowError | PintError | FileNotFoundError
| MimosaSolverWarning | OtherError (msg : string).

Inductive result (A : Type) := Ok (a : A) | Err (e : exn).
Arguments Ok {A} a.
Arguments Err {A} e.

Definition bind {A B} (x : result A) (f : A -> result B) : result B :=
  match x with Ok a => f a | Err e => Err e end.
Notation "'do' x <- m ; k" := (bind m (fun x => k)) (at level 200, x name, m at level 100, k at level 200).

(** [for x in l: acc = f(acc, x)], stopping at the first exception. *)
Fixpoint fold_result {A S} (f : S -> A -> result S) (l : list A) (s : S) : result S :=
  match l with [] => Ok s | x :: r => do s' <- f s x; fold_result f r s' end.

Fixpoint map_result {A B} (f : A -> result B) (l : list A) : result (list B) :=
  match l with
  | [] => Ok []
  | x :: r => do y <- f x; do ys <- map_result f r; Ok (y :: ys)
  end.

(** ** Values *)
Inductive pyfloat := FFin (q : Q) | FInf | FNegInf | FNaN.
Inductive key := KStr (s : string) | KInt (z : Z).

Inductive pyval :=
| VNone
| VBool (b : bool)
| VInt (z : Z)
| VFloat (f : pyfloat)
| VStr (s : string)
| VList (l : list pyval)
| VDict (d : list (key * pyval)).

Definition pydict := list (key * pyval).

Definition key_eqb (a b : key) : bool :=
  match a, b with
  | KStr s, KStr t => String.eqb s t
  | KInt x, KInt y => Z.eqb x y
  | _, _ => false
  end.

(** d[k] on an insertion-ordered dictionary (first binding: python dictionaries have one). *)
Fixpoint dget {A} (d : list (key * A)) (k : key) : option A :=
  match d with
  | [] => None
  | (k', v) :: r => if key_eqb k' k then Some v else dget r k
  end.

(** d[k] = v *)
Fixpoint dset {A} (d : list (key * A)) (k : key) (v : A) : list (key * A) :=
  match d with
  | [] => [(k, v)]
  | (k', v') :: r => if key_eqb k' k then (k', v) :: r else (k', v') :: dset r k v
  end.

Definition dmem {A} (d : list (key * A)) (k : key) : bool :=
  match dget d k with Some _ => true | None => false end.

(** Every dictionary occurring in the value has pairwise different keys (true of every python
    value; a hypothesis of theorems that need it). *)
Definition is_dict (v : pyval) : bool := match v with VDict _ => true | _ => false end.
Definition is_str (v : pyval) : bool := match v with VStr _ => true | _ => false end.

(** ** Numbers: comparison across bool, int and float (exact, as in python) *)
Definition num_of (v : pyval) : option pyfloat :=
  match v with
  | VBool true => Some (FFin 1)
  | VBool false => Some (FFin 0)
  | VInt z => Some (FFin (inject_Z z))
  | VFloat f => Some f
  | _ => None
  end.

Definition Qltb (x y : Q) : bool := negb (Qle_bool y x).

Definition feqb (a b : pyfloat) : bool :=
  match a, b with
  | FFin x, FFin y => Qeq_bool x y
  | FInf, FInf => true
  | FNegInf, FNegInf => true
  | _, _ => false
  end.

Definition fltb (a b : pyfloat) : bool :=
  match a, b with
  | FFin x, FFin y => Qltb x y
  | FFin _, FInf => true
  | FNegInf, FFin _ => true
  | FNegInf, FInf => true
  | _, _ => false
  end.

(** [a < b]; TypeError when one side is not a number (str/str and list/list comparisons do not
    occur: the right-hand side is a template bound). *)
Definition py_ltb (a b : pyval) : result bool :=
  match num_of a, num_of b with
  | Some x, Some y => Ok (fltb x y)
  | _, _ => Err TypeError
  end.

(** [a == b].  Dictionaries compare as maps. *)
Fixpoint py_eqb (a b : pyval) {struct a} : bool :=
  match a, b with
  | VNone, VNone => true
  | VStr s, VStr t => String.eqb s t
  | VList l, VList l' =>
      (fix go l l' :=
         match l, l' with
         | [], [] => true
         | x :: r, y :: r' => py_eqb x y && go r r'
         | _, _ => false
         end) l l'
  | VDict d, VDict d' =>
      Nat.eqb (List.length d) (List.length d') &&
      (fix go l :=
         match l with
         | [] => true
         | (k, v) :: r => match dget d' k with Some v' => py_eqb v v' && go r | None => false end
         end) d
  | _, _ =>
      match num_of a, num_of b with
      | Some x, Some y => feqb x y
      | _, _ => false
      end
  end.

(** [v in l] for a list *)
Definition py_in (v : pyval) (l : list pyval) : bool := existsb (fun w => py_eqb v w) l.

(** truth value of an object ([if x:]) *)
Definition py_truth (v : pyval) : bool :=
  match v with
  | VNone => false
  | VBool b => b
  | VInt z => negb (Z.eqb z 0)
  | VFloat (FFin q) => negb (Qeq_bool q 0)
  | VFloat _ => true
  | VStr s => negb (String.eqb s "")
  | VList l => match l with [] => false | _ => true end
  | VDict d => match d with [] => false | _ => true end
  end.

(** ** str() *)
Definition string_of_Z (z : Z) : string := NilZero.string_of_int (Z.to_int z).

(** [repr] is the oracle for str() of floats and containers. *)
Definition py_str (repr : pyval -> string) (v : pyval) : string :=
  match v with
  | VStr s => s
  | VInt z => string_of_Z z
  | VBool true => "True"
  | VBool false => "False"
  | VNone => "None"
  | _ => repr v
  end.

(** ** String operations *)
(** [s.replace(old, new)] for non-empty [old]: left to right, non-overlapping.  (For [old = ""]
    python inserts [new] everywhere; no cited call does that and the model returns [s].) *)
Fixpoint replace_aux (old new : string) (skip : nat) (s : string) : string :=
  match s with
  | EmptyString => EmptyString
  | String c r =>
      match skip with
      | S k => replace_aux old new k r
      | O => if String.prefix old s
             then (new ++ replace_aux old new (String.length old - 1) r)%string
             else String c (replace_aux old new 0 r)
      end
  end.
Definition str_replace (s old new : string) : string :=
  if String.eqb old "" then s else replace_aux old new 0 s.

(** [sub in s] *)
Fixpoint str_contains (sub s : string) : bool :=
  String.prefix sub s ||
  match s with EmptyString => false | String _ r => str_contains sub r end.

Definition str_startswith (s pre : string) : bool := String.prefix pre s.

(** [s.split(sep)] for non-empty [sep] *)
Fixpoint split_aux (sep : string) (skip : nat) (acc s : string) : list string :=
  match s with
  | EmptyString => [acc]
  | String c r =>
      match skip with
      | S k => split_aux sep k acc r
      | O => if String.prefix sep s
             then acc :: split_aux sep (String.length sep - 1) "" r
             else split_aux sep 0 (acc ++ String c "")%string r
      end
  end.
Definition str_split (s sep : string) : list string := split_aux sep 0 "" s.

(** [sep.join(l)] *)
Fixpoint str_join (sep : string) (l : list string) : string :=
  match l with
  | [] => ""
  | [x] => x
  | x :: r => (x ++ sep ++ str_join sep r)%string
  end.

Definition char_in (lo hi : nat) (c : ascii) : bool :=
  let n := nat_of_ascii c in Nat.leb lo n && Nat.leb n hi.
Definition is_digit (c : ascii) : bool := char_in 48 57 c.
(** regex class [\w] (ASCII) *)
Definition is_word (c : ascii) : bool :=
  is_digit c || char_in 65 90 c || char_in 97 122 c || Ascii.eqb c "_".
(** whitespace stripped by str.strip() (ASCII) *)
Definition is_space (c : ascii) : bool := char_in 9 13 c || char_in 28 32 c.

Definition lower (c : ascii) : ascii :=
  if char_in 65 90 c then ascii_of_nat (nat_of_ascii c + 32) else c.

(** [re.findall(r"\{([\w -]+)\}", s)]: the class contains neither brace, so greedy matching
    never backtracks. *)
Definition ref_char (c : ascii) : bool := is_word c || Ascii.eqb c " " || Ascii.eqb c "-".
Fixpoint span (p : ascii -> bool) (s : string) : string * string :=
  match s with
  | EmptyString => (EmptyString, EmptyString)
  | String c r => if p c then let '(a, b) := span p r in (String c a, b) else (EmptyString, s)
  end.
Definition ref_at (s : string) : option string :=
  match s with
  | String "{" r =>
      match span ref_char r with
      | (EmptyString, _) => None
      | (name, String "}" _) => Some name
      | _ => None
      end
  | _ => None
  end.
Fixpoint findall_refs_aux (skip : nat) (s : string) : list string :=
  match s with
  | EmptyString => []
  | String c r =>
      match skip with
      | S k => findall_refs_aux k r
      | O => match ref_at s with
             | Some name => name :: findall_refs_aux (String.length name + 1) r
             | None => findall_refs_aux 0 r
             end
      end
  end.
Definition findall_refs (s : string) : list string := findall_refs_aux 0 s.

(** ** float() and int() *)
Definition chars := list_ascii_of_string.
Fixpoint lstrip (l : list ascii) : list ascii :=
  match l with c :: r => if is_space c then lstrip r else l | [] => [] end.
Definition strip (l : list ascii) : list ascii := rev (lstrip (rev (lstrip l))).

Definition digit_val (c : ascii) : Z := Z.of_nat (nat_of_ascii c) - 48.

(** digits with single underscores between digits; returns value, number of digits, rest *)
Fixpoint read_digits (l : list ascii) (acc : Z) (n : nat) (prev : bool) : Z * nat * list ascii :=
  match l with
  | c :: r =>
      if is_digit c then read_digits r (acc * 10 + digit_val c) (S n) true
      else if Ascii.eqb c "_" && prev && match r with d :: _ => is_digit d | [] => false end
           then read_digits r acc n false
           else (acc, n, l)
  | [] => (acc, n, [])
  end.

Definition read_sign (l : list ascii) : bool * list ascii :=
  match l with
  | "+"%char :: r => (false, r)
  | "-"%char :: r => (true, r)
  | _ => (false, l)
  end.

Definition chars_eqb (a : list ascii) (b : string) : bool :=
  String.eqb (string_of_list_ascii (map lower a)) b.

Definition Q10pow (e : Z) : Q :=
  match e with
  | Z0 => 1
  | Zpos p => inject_Z (Z.pow_pos 10 p)
  | Zneg p => Qmake 1 (Pos.pow 10 p)
  end.

(** magnitudes that round to an infinite float *)
Definition float_overflow : Q := inject_Z (2 ^ 1024 - 2 ^ 970).
Definition mk_float (q : Q) : pyfloat :=
  if Qle_bool float_overflow q then FInf
  else if Qle_bool q (- float_overflow) then FNegInf
  else FFin q.

Definition fneg (f : pyfloat) : pyfloat :=
  match f with FFin q => FFin (- q) | FInf => FNegInf | FNegInf => FInf | FNaN => FNaN end.

Definition parse_float_str (s : string) : option pyfloat :=
  let '(neg, l) := read_sign (strip (chars s)) in
  let sgn f := if neg then fneg f else f in
  if chars_eqb l "inf" || chars_eqb l "infinity" then Some (sgn FInf)
  else if chars_eqb l "nan" then Some FNaN
  else
    let '(ip, ni, l1) := read_digits l 0 0 false in
    let '(m, nf, l2) :=
      match l1 with
      | "."%char :: r => read_digits r ip 0 false
      | _ => (ip, O, l1)
      end in
    if Nat.eqb (ni + nf) 0 then None
    else
      match l2 with
      | [] => Some (sgn (mk_float (inject_Z m * Q10pow (- Z.of_nat nf))))
      | c :: r =>
          if Ascii.eqb (lower c) "e" then
            let '(eneg, r1) := read_sign r in
            let '(e, ne, r2) := read_digits r1 0 0 false in
            match ne, r2 with
            | S _, [] =>
                Some (sgn (mk_float (inject_Z m * Q10pow ((if eneg then - e else e) - Z.of_nat nf))))
            | _, _ => None
            end
          else None
      end.

Definition parse_int_str (s : string) : option Z :=
  let '(neg, l) := read_sign (strip (chars s)) in
  match read_digits l 0 0 false with
  | (z, S _, []) => Some (if neg then - z else z)%Z
  | _ => None
  end.

(** [float(v)] *)
Definition py_float (v : pyval) : result pyfloat :=
  match v with
  | VBool b => Ok (FFin (if b then 1 else 0))
  | VInt z => match mk_float (inject_Z z) with FFin q => Ok (FFin q) | _ => Err OverflowError end
  | VFloat f => Ok f
  | VStr s => match parse_float_str s with Some f => Ok f | None => Err ValueError end
  | _ => Err TypeError
  end.

(** truncation towards zero *)
Definition Qtrunc (q : Q) : Z := Z.quot (Qnum q) (Zpos (Qden q)).

(** [int(v)] *)
Definition py_int (v : pyval) : result Z :=
  match v with
  | VBool b => Ok (if b then 1 else 0)%Z
  | VInt z => Ok z
  | VFloat (FFin q) => Ok (Qtrunc q)
  | VFloat FNaN => Err ValueError
  | VFloat _ => Err OverflowError
  | VStr s => match parse_int_str s with Some z => Ok z | None => Err ValueError end
  | _ => Err TypeError
  end.

(** ** Induction principle with hypotheses for list elements and dictionary values *)
Section pyval_ind'.
  Variable P : pyval -> Prop.
  Hypothesis HNone : P VNone.
  Hypothesis HBool : forall b, P (VBool b).
  Hypothesis HInt : forall z, P (VInt z).
  Hypothesis HFloat : forall f, P (VFloat f).
  Hypothesis HStr : forall s, P (VStr s).
  Hypothesis HList : forall l, Forall P l -> P (VList l).
  Hypothesis HDict : forall d, Forall (fun kv => P (snd kv)) d -> P (VDict d).
  Fixpoint pyval_ind' (v : pyval) : P v :=
    match v with
    | VNone => HNone
    | VBool b => HBool b
    | VInt z => HInt z
    | VFloat f => HFloat f
    | VStr s => HStr s
    | VList l => HList l
        ((fix go l : Forall P l :=
            match l with [] => Forall_nil _ | x :: r => Forall_cons x (pyval_ind' x) (go r) end) l)
    | VDict d => HDict d
        ((fix go d : Forall (fun kv => P (snd kv)) d :=
            match d with
            | [] => Forall_nil _
            | kv :: r => Forall_cons kv (pyval_ind' (snd kv)) (go r)
            end) d)
    end.
End pyval_ind'.
