(** Which objects of the caller's dictionary the parsed parameters keep using (object identity in
    mimosa/common/config/parseconfig.py and mimosa/common/config/utils/parsers.py).  Parsers.v and Config.v describe the values only;
    here every dictionary and list of the result is either new or still the caller's own object, and an assignment
    into one of the caller's objects changes the caller's dictionary.
    Simplification (as in Config.v): the caller's dictionary has no object that is reachable along two paths. *)
From Verif Require Import PyBase NestedDict Parsers Config.
Import ListNotations.
Open Scope list_scope.

(** A Python value of the parsed parameters: an immutable value, the object found in the caller's dictionary
    at a path, a new dictionary or a new list. *)
Inductive oval :=
| OImm (v : pyval)
| OUser (p : list key)
| ODict (d : list (key * oval))
| OList (l : list oval).

(** the objects yaml.safe_load makes for a default value (common/utils.py 46-52: the template is read again
    at each call) *)
Fixpoint fresh (v : pyval) : oval :=
  match v with
  | VDict d => ODict ((fix go (l : pydict) : list (key * oval) :=
                         match l with [] => [] | (k, x) :: r => (k, fresh x) :: go r end) d)
  | VList l => OList ((fix go (l : list pyval) : list oval :=
                         match l with [] => [] | x :: r => fresh x :: go r end) l)
  | _ => OImm v
  end.

(** a Python expression that returns the object it was given; [src] is where that object is in the caller's
    dictionary ([None]: a default) *)
Definition same_object (src : option (list key)) (v : pyval) : oval :=
  match src with
  | None => fresh v
  | Some p => match v with VDict _ | VList _ => OUser p | _ => OImm v end
  end.
Definition child (src : option (list key)) (k : key) : option (list key) :=
  match src with Some p => Some (p ++ [k]) | None => None end.

(** the value of such an object, given the caller's dictionary *)
Section read.
  Variable user : pyval.
  Fixpoint oread (x : oval) : result pyval :=
    match x with
    | OImm v => Ok v
    | OUser p => get_nested user p
    | ODict d =>
        do d' <- (fix go (l : list (key * oval)) : result pydict :=
                    match l with [] => Ok [] | (k, y) :: r => do v <- oread y; do r' <- go r; Ok ((k, v) :: r') end) d;
        Ok (VDict d')
    | OList l =>
        do l' <- (fix go (l : list oval) : result (list pyval) :=
                    match l with [] => Ok [] | y :: r => do v <- oread y; do r' <- go r; Ok (v :: r') end) l;
        Ok (VList l')
    end.
End read.

(** [for i, x in enumerate(l)] *)
Fixpoint map_index {A B} (f : nat -> A -> result B) (i : nat) (l : list A) : result (list B) :=
  match l with [] => Ok [] | x :: r => do y <- f i x; do ys <- map_index f (S i) r; Ok (y :: ys) end.

Section oparse.
  Variable o : oracles.
  (** The [parse] methods (parsers.py, the lines cited at [Parsers.parse]), with the objects they return: enum (244),
      quantity (288) and str_or_plain_dict (121) return the object they were given; list (322-326) and dict (355-361) make a
      new object whose items are the caller's own when there is no values parser (314-317).
      The string, boolean and number parsers return immutable values. *)
  Fixpoint oparse (p : parser) (src : option (list key)) (v : pyval) {struct p} : result oval :=
    let '(Parser ty _ cbf _ _ allowed unit vp kp) := p in
    if cbf && is_falsy v then Ok (OImm (VBool false))
    else
      let item (src : option (list key)) (x : pyval) : result oval :=
        match vp with Some q => oparse q src x | None => Ok (same_object src x) end in
      let parse_key (k : key) : result pyval :=
        match kp with Some q => parse o q (val_of_key k) | None => Ok (val_of_key k) end in
      let parse_dict (d : pydict) : result (list (key * oval)) :=
        fold_result (fun acc kv =>
          do k' <- parse_key (fst kv);
          do kk <- key_of_val k';
          do v' <- item (child src (fst kv)) (snd kv);
          Ok (dset acc kk v')) d [] in
      match ty with
      | TStrOrPlainDict =>
          match v with VDict _ => Ok (same_object src v) | _ => Ok (OImm (VStr (py_str (o_repr o) v))) end
      | TEnum => if py_in v allowed then Ok (same_object src v) else Err ValueError
      | TQuantity =>
          match quant o v unit false with
          | Ok _ => Ok (same_object src v)
          | Err PintError => Err ValueError
          | Err e => Err e
          end
      | TList =>
          match v with
          | VList l => do l' <- map_index (fun i x => item (child src (KInt (Z.of_nat i))) x) 0 l; Ok (OList l')
          | VNone => Ok (OList [])
          | _ => Err ValueError
          end
      | TDict =>
          match v with
          | VDict d => do d' <- parse_dict d; Ok (ODict d')
          | VNone => Ok (ODict [])
          | _ => Err ValueError
          end
      | TDatasource =>
          match v with
          | VDict d =>
              do d' <- parse_dict d;
              if forallb (fun k => dmem d' (KStr k)) ["variable"; "unit"; "scenario"; "model"; "file"]%string
              then Ok (ODict d') else Err ValueError
          | _ => Err ValueError
          end
      | TStr | TFilepath | TBool | TFloat | TInt => do w <- parse o p v; Ok (OImm w)
      end.

  (** parsers.py 60-66 *)
  Definition oget (p : parser) (user : pyval) (keys : list key) : result oval :=
    match get_nested user keys with
    | Ok v => oparse p (Some keys) v
    | Err KeyError => oparse p None (p_default p)
    | Err e => Err e
    end.
End oparse.

(** set_nested (nested_dict.py 9-11) on such an object: the caller's dictionary afterwards and the new object.
    An assignment below one of the caller's objects is an assignment in the caller's dictionary.  (Only immutable
    values are assigned there by the code: the resolved texts of parseconfig.py 127.) *)
Fixpoint oset (user : pyval) (x : oval) (keys : list key) (y : oval) : result (pyval * oval) :=
  match keys with
  | [] => Err IndexError
  | k :: r =>
      match x with
      | ODict d =>
          match r with
          | [] => Ok (user, ODict (dset d k y))
          | _ =>
              let sub := match dget d k with Some s => s | None => ODict [] end in
              do us <- oset user sub r y;
              Ok (fst us, ODict (dset d k (snd us)))
          end
      | OUser p =>
          match y with
          | OImm v => do user' <- set_nested user (p ++ k :: r) v; Ok (user', x)
          | _ => Err (OtherError "not modelled")
          end
      | _ => Err TypeError
      end
  end.

Section run.
  Variable o : oracles.

  (** parseconfig.py 35-42, one leaf; the state is the caller's dictionary, the parsed parameters and the parser tree *)
  Definition oparse_leaf (st : (pyval * oval) * ptree) (leaf : list key * pyval) : result ((pyval * oval) * ptree) :=
    let '((user, parsed), tree) := st in
    let '(keys, node) := leaf in
    do p <- create_parser node;
    do tree' <- ptree_set tree keys p;
    do v <- oget o p user keys;
    do us <- oset user parsed keys v;
    Ok (us, tree').

  (** parseconfig.py 86-97 *)
  Definition ocheck_params (default_yaml user : pyval) : result ((pyval * oval) * ptree) :=
    match default_yaml with
    | VDict _ =>
        do st <- fold_result oparse_leaf (leaves schema_leaf [] default_yaml) ((user, ODict []), PNode []);
        do parsed <- oread (fst (fst st)) (snd (fst st));
        do _ <- check_obsolete_params (fst (fst st)) parsed (snd st);
        Ok st
    | _ => Err AttributeError
    end.

  (** parseconfig.py 120-129 *)
  Definition oresolve_match (keys : list key) (node : string) (st : pyval * oval) (m : string) : result (pyval * oval) :=
    do params <- oread (fst st) (snd st);
    match get_nested params (map KStr (str_split m " - ")) with
    | Err KeyError => Ok st
    | Err e => Err e
    | Ok (VStr other) =>
        match oset (fst st) (snd st) keys (OImm (VStr (str_replace node ("{" ++ m ++ "}")%string other))) with
        | Err KeyError => Ok st
        | x => x
        end
    | Ok _ => Err TypeError
    end.
  Definition oresolve_leaf (st : pyval * oval) (leaf : list key * pyval) : result (pyval * oval) :=
    match snd leaf with
    | VStr node => fold_result (oresolve_match (fst leaf) node) (findall_refs node) st
    | _ => Ok st
    end.

  (** parseconfig.py 100-133 *)
  Definition oparse_param_values (st : pyval * oval) : result (pyval * oval) :=
    do params <- oread (fst st) (snd st);
    match params with
    | VDict _ => fold_result oresolve_leaf (leaves value_leaf [] params) st
    | _ => Err AttributeError
    end.

  (** mimosa.py 49-55: the part of MIMOSA(params) that handles the dictionary.  No later line of the construction
      assigns into the parameters.  The caller's dictionary afterwards, and self.params. *)
  Definition oconstruct (default_yaml user : pyval) : result (pyval * oval) :=
    do st <- ocheck_params default_yaml user;
    oparse_param_values (fst st).
End run.
