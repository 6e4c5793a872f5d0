(** Property theorems (generated by tools/gen_props.py from the proved lemmas; statements only). *)
From Verif Require Import PyBase NestedDict Parsers Config ConfigDefault ConfigSpec InstFacts Sharing SharingSpec SharingLemmas SharingExample.
Import ListNotations.
Open Scope string_scope.
Open Scope list_scope.

(** Constructing a model leaves the caller's dictionary as it was, and the model keeps the checked parameters [params], also when
    the caller edits his dictionary afterwards (outside the shared objects).  The hypothesis: no shared object contains a
    text with "{". *)
Theorem C62_caller_unchanged : forall o user raw params tree, accepted o user raw params tree ->
  (forall q z s, shared_object config_default user q z -> text_in z s -> no_brace s) ->
  exists self, oconstruct o config_default user = Ok (user, self) /\ oread user self = Ok params /\
    forall user', (forall q z, shared_object config_default user q z -> get_nested user q = Ok z -> get_nested user' q = Ok z) ->
      oread user' self = Ok params.
Proof. exact C62_caller_unchanged_pf. Qed.
Print Assumptions C62_caller_unchanged.

(** A reference in a shared object is replaced in the caller's dictionary; a second model made from the same
    dictionary with another SSP gets the text of the first one. *)
Theorem C62_shared_reference_refuted : exists o user user' self user2 self2 user3 self3,
  lookup user deep = Some (VStr "{SSP}") /\
  oconstruct o config_default user = Ok (user', self) /\ lookup user' deep = Some (VStr "SSP2") /\ user' <> user /\
  set_nested user' [KStr "SSP"] (VStr "SSP1") = Ok user2 /\
  oconstruct o config_default user2 = Ok (user2, self2) /\
  (exists p2, oread user2 self2 = Ok p2 /\ lookup p2 ["SSP"]%string = Some (VStr "SSP1") /\ lookup p2 deep = Some (VStr "SSP2")) /\
  oconstruct o config_default (VDict ((KStr "SSP", VStr "SSP1") :: match user with VDict d => d | _ => [] end)) = Ok (user3, self3) /\
  (exists p3, oread user3 self3 = Ok p3 /\ lookup p3 deep = Some (VStr "SSP1")).
Proof. exact C62_shared_reference_refuted_pf. Qed.
Print Assumptions C62_shared_reference_refuted.
