(** mimosa/common/config/utils/parsers.py and mimosa/common/units.py (unit strings).

    Oracles: [o_repr] is str() of floats and containers, [o_pint s u] is
    [pint.Quantity(s).to(u).magnitude] (units.py 51, 60).  Not modelled: to_markdown, to_string,
    __repr__ (documentation output). *)
From Verif Require Import PyBase NestedDict.

Record oracles := { o_repr : pyval -> string; o_pint : string -> string -> result Q }.

(** ** units.py *)

(** default_units.yaml 1-5, in file order *)
Definition default_units : list (string * string) :=
  [ ("currency_unit", "trillion USD2005/yr");
    ("emissionsrate_unit", "emissions_unit/yr");
    ("emissions_unit", "GtCO2");
    ("temperature_unit", "delta_degC");
    ("population_unit", "billion") ].

(** units.py 92-98 *)
Definition parse_default_units (units : string) : string :=
  let u := fold_left (fun u kv => str_replace u (fst kv) ("(" ++ snd kv ++ ")")%string)
                     default_units units in
  str_replace u "year" "yr".

(** units.py 100-102 *)
Definition custom_replace (units : string) : string :=
  str_replace (str_replace units "US$" "USD") "t CO2" "tCO2".

(** units.py 33-61, two-argument form with only_magnitude=True.  [None] is the returned False.
    The target unit is the template's [unit] entry; a non-string has no [.replace]. *)
Definition quant (o : oracles) (v : pyval) (unit : pyval) (can_be_false : bool) : result (option Q) :=
  if can_be_false && match v with VBool false => true | _ => false end then Ok None
  else
    match unit with
    | VStr u =>
        let target := parse_default_units (custom_replace u) in
        do q <- o_pint o (custom_replace (py_str (o_repr o) v)) target;
        Ok (Some q)
    | _ => Err AttributeError
    end.

(** ** Parser objects *)

Inductive ptype :=
| TFloat | TInt | TBool | TStr | TEnum | TQuantity | TList | TDict | TDatasource | TFilepath
| TStrOrPlainDict.

(** parsers.py 404-415 *)
Definition parser_types : list (string * ptype) :=
  [ ("float", TFloat); ("int", TInt); ("bool", TBool); ("str", TStr); ("enum", TEnum);
    ("quantity", TQuantity); ("list", TList); ("dict", TDict); ("datasource", TDatasource);
    ("filepath", TFilepath); ("str_or_plain_dict", TStrOrPlainDict) ].

Fixpoint type_lookup (l : list (string * ptype)) (s : string) : option ptype :=
  match l with
  | [] => None
  | (n, t) :: r => if String.eqb n s then Some t else type_lookup r s
  end.

(** parsers.py 34-43 (GeneralParser), 161-164 (min, max), 233 (allowed values), 272 (unit),
    308-312 (values parser), 346-350 (keys parser).  [descr] is only used for messages.
    [p_cbf] is the truth value of can_be_false (line 69). *)
Inductive parser := Parser {
  p_type : ptype;
  p_default : pyval;
  p_cbf : bool;
  p_min : pyval;
  p_max : pyval;
  p_allowed : list pyval;
  p_unit : pyval;
  p_values : option parser;
  p_keys : option parser
}.

Definition dget_or {A} (d : list (key * A)) (k : string) (x : A) : A :=
  match dget d (KStr k) with Some v => v | None => x end.

(** parsers.py 395-401 together with the constructors 35-43, 161-164, 231-237, 270-273, 306-312,
    343-350.  A node that is not a dictionary cannot be subscripted with "type" (TypeError).
    Simplification: an enum whose [values] is not a list is a TypeError. *)
Fixpoint create_parser (node : pyval) : result parser :=
  match node with
  | VDict d =>
      match dget d (KStr "type") with
      | None => Err KeyError
      | Some (VStr tn) =>
          match type_lookup parser_types tn with
          | None => Err KeyError
          | Some ty =>
              let dflt := dget_or d "default" VNone in
              let cbf := py_truth (dget_or d "can_be_false" (VBool false)) in
              let sub (name : string) : result (option parser) :=
                (fix find (l : pydict) : result (option parser) :=
                   match l with
                   | [] => Ok None
                   | (k, v) :: r =>
                       if key_eqb k (KStr name) then do p <- create_parser v; Ok (Some p)
                       else find r
                   end) d in
              match ty with
              | TFloat | TInt =>
                  Ok (Parser ty dflt cbf (dget_or d "min" (VFloat FNegInf))
                             (dget_or d "max" (VFloat FInf)) [] VNone None None)
              | TBool | TStr | TFilepath | TStrOrPlainDict =>
                  Ok (Parser ty dflt cbf VNone VNone [] VNone None None)
              | TEnum =>
                  match dget d (KStr "values") with
                  | None => Err KeyError
                  | Some (VList l) =>
                      if py_in dflt l then Ok (Parser ty dflt cbf VNone VNone l VNone None None)
                      else Err ValueError
                  | Some _ => Err TypeError
                  end
              | TQuantity =>
                  match dget d (KStr "unit") with
                  | None => Err KeyError
                  | Some u => Ok (Parser ty dflt cbf VNone VNone [] u None None)
                  end
              | TList =>
                  do vp <- sub "values";
                  Ok (Parser ty dflt cbf VNone VNone [] VNone vp None)
              | TDict | TDatasource =>
                  do vp <- sub "values";
                  do kp <- sub "keys";
                  Ok (Parser ty dflt cbf VNone VNone [] VNone vp kp)
              end
          end
      | Some (VList _) | Some (VDict _) => Err TypeError
      | Some _ => Err KeyError
      end
  | _ => Err TypeError
  end.

(** parsers.py 92-97 *)
Definition is_truthy (v : pyval) : bool :=
  py_in v [VInt 1; VBool true; VStr "True"; VStr "true"; VStr "yes"].
Definition is_falsy (v : pyval) : bool :=
  py_in v [VInt 0; VBool false; VStr "False"; VStr "false"; VStr "no"].

Definition val_of_key (k : key) : pyval := match k with KStr s => VStr s | KInt z => VInt z end.
(** A parsed key used as a dictionary key: lists and dictionaries are unhashable (TypeError);
    True/False are the keys 1/0.  Simplification: None and float keys are not modelled. *)
Definition key_of_val (v : pyval) : result key :=
  match v with
  | VStr s => Ok (KStr s)
  | VInt z => Ok (KInt z)
  | VBool b => Ok (KInt (if b then 1 else 0)%Z)
  | VList _ | VDict _ => Err TypeError
  | _ => Err (OtherError "key type not modelled")
  end.

(** parsers.py 175-180 *)
Definition check_bounds (p : parser) (v : pyval) : result pyval :=
  do lo <- py_ltb v (p_min p);
  if lo : bool then Err ValueError
  else do hi <- py_ltb (p_max p) v;
       if hi : bool then Err ValueError else Ok v.

Section parse.
  Variable o : oracles.

  (** The check for False (GeneralParser 68-71, first line of [parse] below) and the [parse] methods: StringParser 105-108, StringOrPlainDictParser 116-123, FilepathParser
      131-135, BoolParser 143-153, NumParser 166-180, EnumParser 239-244, QuantityParser 275-288
      (returns the value unconverted), ListParser 319-330, DictParser 352-365, DatasourceParser
      373-384.  Every [self.error] is a ValueError (45-54). *)
  Fixpoint parse (p : parser) (v : pyval) {struct p} : result pyval :=
    let '(Parser ty _ cbf _ _ allowed unit vp kp) := p in
    if cbf && is_falsy v then Ok (VBool false)
    else
      let parse_item (x : pyval) : result pyval :=
        match vp with Some q => parse q x | None => Ok x end in
      let parse_key (k : key) : result pyval :=
        match kp with Some q => parse q (val_of_key k) | None => Ok (val_of_key k) end in
      let parse_dict (d : pydict) : result pydict :=
        fold_result (fun acc kv =>
          do k' <- parse_key (fst kv);
          do kk <- key_of_val k';
          do v' <- parse_item (snd kv);
          Ok (dset acc kk v')) d [] in
      match ty with
      | TStr | TFilepath => Ok (VStr (py_str (o_repr o) v))
      | TStrOrPlainDict =>
          match v with VDict _ => Ok v | _ => Ok (VStr (py_str (o_repr o) v)) end
      | TBool =>
          if is_truthy v then Ok (VBool true)
          else if is_falsy v then Ok (VBool false)
          else Err ValueError
      | TFloat => do f <- py_float v; check_bounds p (VFloat f)
      | TInt => do z <- py_int v; check_bounds p (VInt z)
      | TEnum => if py_in v allowed then Ok v else Err ValueError
      | TQuantity =>
          match quant o v unit false with
          | Ok _ => Ok v
          | Err PintError => Err ValueError
          | Err e => Err e
          end
      | TList =>
          match v with
          | VList l => do l' <- map_result parse_item l; Ok (VList l')
          | VNone => Ok (VList [])
          | _ => Err ValueError
          end
      | TDict =>
          match v with
          | VDict d => do d' <- parse_dict d; Ok (VDict d')
          | VNone => Ok (VDict [])
          | _ => Err ValueError
          end
      | TDatasource =>
          match v with
          | VDict d =>
              do d' <- parse_dict d;
              if forallb (fun k => dmem d' (KStr k)) ["variable"; "unit"; "scenario"; "model"; "file"]
              then Ok (VDict d') else Err ValueError
          | _ => Err ValueError
          end
      end.

  (** parsers.py 60-66 *)
  Definition parser_get (p : parser) (user_config : pyval) (keys : list key) : result pyval :=
    match get_nested user_config keys with
    | Ok v => parse p v
    | Err KeyError => parse p (p_default p)
    | Err e => Err e
    end.
End parse.
