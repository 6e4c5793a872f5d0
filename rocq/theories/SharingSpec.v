(** Vocabulary for C62 (the caller's dictionary): which of the caller's objects are still in use after MIMOSA(params). *)
From Verif Require Import PyBase ConfigSpec.
Import ListNotations.
Open Scope list_scope.

(** a text stored in (nested) dictionaries *)
Inductive text_in : pyval -> string -> Prop :=
| text_here s : text_in (VStr s) s
| text_below d k y s : In (k, y) d -> text_in y s -> text_in (VDict d) s.

(** values that Python passes on by reference *)
Definition container (v : pyval) : Prop := match v with VDict _ | VList _ => True | _ => False end.
Definition dict_type (node : pyval) : Prop := has_type node "dict" \/ has_type node "datasource".
Definition list_type (node : pyval) : Prop := has_type node "list".

(** [shared_at node x rest z]: the parameter declared by [node] has the value [x]; the object [z] found in it along
    [rest] is not copied.  A dictionary (or list) parameter is copied one level deep; its items are copied further when the
    declaration has a dictionary (or list) declaration for its values. *)
Inductive shared_at : pyval -> pyval -> list key -> pyval -> Prop :=
| shared_whole node x : ~ dict_type node -> ~ list_type node -> container x -> shared_at node x [] x
| shared_item node d k y : dict_type node -> entry node "values" = None -> In (k, y) d -> container y ->
    shared_at node (VDict d) [k] y
| shared_in_item node vnode d k y rest z : dict_type node -> entry node "values" = Some vnode -> In (k, y) d ->
    shared_at vnode y rest z -> shared_at node (VDict d) (k :: rest) z
| shared_element node l i y : list_type node -> entry node "values" = None -> nth_error l i = Some y -> container y ->
    shared_at node (VList l) [KInt (Z.of_nat i)] y
| shared_in_element node vnode l i y rest z : list_type node -> entry node "values" = Some vnode -> nth_error l i = Some y ->
    shared_at vnode y rest z -> shared_at node (VList l) (KInt (Z.of_nat i) :: rest) z.

(** [shared_object template user q z]: the object [z] of the caller's dictionary at [q] is shared. *)
Definition shared_object (template user : pyval) (q : list key) (z : pyval) : Prop :=
  exists P node x rest, param_at template P node /\ lookup user P = Some x /\ shared_at node x rest z /\
    q = map KStr P ++ rest.
