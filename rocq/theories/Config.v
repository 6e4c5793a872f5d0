(** mimosa/common/config/parseconfig.py *)
From Verif Require Import PyBase NestedDict Parsers.

(** parseconfig.py 13-25: the leaves visited by recursive_traverse, in
    order.  Both criteria used in the code accept every non-dictionary, so the recursive call only
    sees dictionaries; the root must be one (AttributeError otherwise, see the callers). *)
Section leaves.
  Variable crit : pyval -> bool.
  Fixpoint leaves (pre : list key) (v : pyval) {struct v} : list (list key * pyval) :=
    match v with
    | VDict d =>
        (fix go (l : pydict) : list (list key * pyval) :=
           match l with
           | [] => []
           | (k, node) :: r =>
               (if crit node then [(pre ++ [k], node)] else leaves (pre ++ [k]) node) ++ go r
           end) d
    | _ => []
    end.
End leaves.

(** parseconfig.py 32-33 *)
Definition schema_leaf (node : pyval) : bool :=
  match node with VDict d => dmem d (KStr "type") | _ => true end.
(** parseconfig.py 117-118 *)
Definition value_leaf (node : pyval) : bool := negb (is_dict node).

(** The parser tree (parseconfig.py 30, 39): nested dictionaries of parser objects. *)
Inductive ptree := PLeaf (p : parser) | PNode (d : list (key * ptree)).

(** set_nested on the parser tree (nested_dict.py 9-11); a parser object on the path is a
    TypeError ([key not in parser]). *)
Fixpoint ptree_set (t : ptree) (keys : list key) (x : parser) : result ptree :=
  match keys with
  | [] => Err IndexError
  | k :: r =>
      match t with
      | PNode d =>
          match r with
          | [] => Ok (PNode (dset d k (PLeaf x)))
          | _ =>
              let sub := match dget d k with Some s => s | None => PNode [] end in
              do sub' <- ptree_set sub r x;
              Ok (PNode (dset d k sub'))
          end
      | PLeaf _ => Err TypeError
      end
  end.

(** get_nested on the parser tree (nested_dict.py 1-6) *)
Fixpoint ptree_get (t : ptree) (keys : list key) : result ptree :=
  match keys with
  | [] => Ok t
  | k :: r =>
      match t with
      | PNode d => match dget d k with Some t' => ptree_get t' r | None => Err KeyError end
      | PLeaf _ => Err TypeError
      end
  end.

Section Config.
  Variable o : oracles.

  (** parseconfig.py 35-42, one leaf *)
  Definition parse_leaf (user_yaml : pyval) (st : pyval * ptree) (leaf : list key * pyval)
    : result (pyval * ptree) :=
    let '(parsed, tree) := st in
    let '(keys, node) := leaf in
    do p <- create_parser node;
    do tree' <- ptree_set tree keys p;
    do v <- parser_get o p user_yaml keys;
    do parsed' <- set_nested parsed keys v;
    Ok (parsed', tree').

  (** parseconfig.py 28-49 *)
  Definition parse_params (default_yaml user_yaml : pyval) : result (pyval * ptree) :=
    match default_yaml with
    | VDict _ =>
        fold_result (parse_leaf user_yaml) (leaves schema_leaf [] default_yaml) (VDict [], PNode [])
    | _ => Err AttributeError
    end.

  (** parseconfig.py 52-62.  TypeError is not caught by line 56. *)
  Definition obsolete_leaf (tree : ptree) (keys : list key) (node : pyval) : result bool :=
    match ptree_get tree keys with
    | Err KeyError | Err AttributeError | Ok (PNode _) => Ok (negb (is_dict node))
    | Ok (PLeaf p) =>
        match p_type p with
        | TDict | TDatasource => Ok true
        | _ => Ok (negb (is_dict node))
        end
    | Err e => Err e
    end.

  (** parseconfig.py 65-79 *)
  Definition check_obsolete_params (user_yaml parsed : pyval) (tree : ptree) : result unit :=
    do ku <- flatten (obsolete_leaf tree) user_yaml;
    do kp <- flatten (obsolete_leaf tree) parsed;
    if forallb (fun kv => dmem kp (fst kv)) ku then Ok tt else Err RuntimeWarning.

  (** parseconfig.py 86-97 (with return_parser_tree=True) *)
  Definition check_params (default_yaml input_params : pyval) : result (pyval * ptree) :=
    do pt <- parse_params default_yaml input_params;
    do _ <- check_obsolete_params input_params (fst pt) (snd pt);
    Ok pt.

  (** parseconfig.py 120-129: one leaf visited by parse_param_values.  [node] is the original
      string; every match replaces in [node], not in the value written by an earlier match.
      A non-string other_value makes str.replace raise TypeError; KeyError is ignored (128-129);
      get_nested's TypeError (path through a non-dictionary) is not. *)
  Definition resolve_match (keys : list key) (node : string) (params : pyval) (m : string)
    : result pyval :=
    match get_nested params (map KStr (str_split m " - ")) with
    | Err KeyError => Ok params
    | Err e => Err e
    | Ok (VStr other) =>
        match set_nested params keys (VStr (str_replace node ("{" ++ m ++ "}") other)) with
        | Err KeyError => Ok params
        | x => x
        end
    | Ok _ => Err TypeError
    end.
  Definition resolve_leaf (params : pyval) (leaf : list key * pyval) : result pyval :=
    match snd leaf with
    | VStr node => fold_result (resolve_match (fst leaf) node) (findall_refs node) params
    | _ => Ok params
    end.

  (** parseconfig.py 100-133.  Simplification: no sub-dictionary of [params] is shared between two
      paths (yaml anchors in the user file could share one). *)
  Definition parse_param_values (params : pyval) : result pyval :=
    match params with
    | VDict _ => fold_result resolve_leaf (leaves value_leaf [] params) params
    | _ => Err AttributeError
    end.
End Config.
