(** mimosa/common/config/utils/nested_dict.py *)
From Verif Require Import PyBase.

(** nested_dict.py 1-6, with create=False.  [key not in dictionary] (line 3) is evaluated first:
    on None/bool/int/float it raises TypeError; on a string the following subscript does
    (TypeError); on a list a string subscript does (TypeError), an int one indexes the list. *)
Definition subscript (v : pyval) (k : key) : result pyval :=
  match v, k with
  | VDict d, _ => match dget d k with Some x => Ok x | None => Err KeyError end
  | VList l, KInt z =>
      let n := Z.of_nat (List.length l) in
      let i := if Z.ltb z 0 then (z + n)%Z else z in
      if Z.ltb i 0 then Err IndexError
      else match nth_error l (Z.to_nat i) with Some x => Ok x | None => Err IndexError end
  | _, _ => Err TypeError
  end.

Fixpoint get_nested (v : pyval) (keys : list key) : result pyval :=
  match keys with
  | [] => Ok v
  | k :: r => do v' <- subscript v k; get_nested v' r
  end.

(** nested_dict.py 9-11: get_nested with create=True on keys[:-1], then assignment.  The mutated
    dictionary is returned.  Simplification: a list on the path is a TypeError also for int keys
    (paths come from dictionary traversals or split strings). *)
Fixpoint set_nested (v : pyval) (keys : list key) (x : pyval) : result pyval :=
  match keys with
  | [] => Err IndexError
  | k :: r =>
      match v with
      | VDict d =>
          match r with
          | [] => Ok (VDict (dset d k x))
          | _ =>
              let sub := match dget d k with Some s => s | None => VDict [] end in
              do sub' <- set_nested sub r x;
              Ok (VDict (dset d k sub'))
          end
      | _ => Err TypeError
      end
  end.

(** " - ".join(keys): TypeError when a key is not a string (nested_dict.py 27) *)
Fixpoint key_strings (ks : list key) : result (list string) :=
  match ks with
  | [] => Ok []
  | KStr s :: r => do l <- key_strings r; Ok (s :: l)
  | KInt _ :: _ => Err TypeError
  end.
Definition join_keys (ks : list key) : result string :=
  do l <- key_strings ks; Ok (str_join " - " l).

(** nested_dict.py 14-33.  The leaf criterion may raise.  [flat] is the dictionary built so far;
    [AttributeError] is [.items()] on something that is not a dictionary (only the root can be,
    when the criterion is one of those used in the code). *)
Section flatten.
  Variable crit : list key -> pyval -> result bool.
  Fixpoint flatten_aux (curr : list key) (flat : list (key * pyval)) (v : pyval) {struct v}
    : result (list (key * pyval)) :=
    match v with
    | VDict d =>
        (fix go (l : pydict) (flat : list (key * pyval)) : result (list (key * pyval)) :=
           match l with
           | [] => Ok flat
           | (k, node) :: r =>
               let keys := curr ++ [k] in
               do leaf <- crit keys node;
               do flat' <-
                 (if leaf : bool then do s <- join_keys keys; Ok (dset flat (KStr s) node)
                  else flatten_aux keys flat node);
               go r flat'
           end) d flat
    | _ => Err AttributeError
    end.
  Definition flatten (v : pyval) : result (list (key * pyval)) := flatten_aux [] [] v.
End flatten.

(** nested_dict.py 18 *)
Definition default_leaf_criterium (keys : list key) (node : pyval) : result bool :=
  Ok (negb (is_dict node)).
