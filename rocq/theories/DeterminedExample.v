(** C66: the default configuration with 10-year steps meets the hypotheses. *)
From Verif Require Import PyBase NestedDict Parsers Config ConfigDefault NestedDictFacts ConfigSpec ConfigBridge ConfigLemmas TimeGrid TimeGridLemmas DataStore DataStoreLemmas
  RegionalParams Instantiate InstFacts InstantiateLemmas ConstructFacts BundledData BundledFacts BundledSigns Model Build Loading LoadingLemmas LoadingExist EndToEnd BundledExample EndToEndExample
  Setters2 Horizon RegionOrder SameInputs ScopeLemmas ScopeExample WelfareSpec ConfigFacts Determined DeterminedData.
From Coq Require Import Reals Lra Lia QArith Qreals Permutation.
Import ListNotations.
Open Scope string_scope.
Open Scope list_scope.
Open Scope R_scope.
Set Bullet Behavior "Strict Subproofs".

Lemma overrides_of d : forallb (fun kx : key * pyval => match snd kx with VDict [] => true | _ => false end) d = true -> no_overrides d.
Proof.
  rewrite forallb_forall. intros H k x cat col I _. specialize (H (k, x) I). cbn [snd] in H. destruct x as [| | | | | |[|]]; try discriminate. reflexivity.
Qed.
Lemma overrides10 : no_overrides regions10.
Proof. apply overrides_of. vm_compute. reflexivity. Qed.

(** Made twice, once in a fresh session and once after another model: the same constraints and the same optimal plans. *)
Example C66_ex : exists inst p, construct py_oracles bundled (fun l => l) unit_one curve empty_caches user10 = Ok inst /\ loads inst p /\
  all_known inst (tf p) (regions p) /\
  forall a inst' q, construct py_oracles bundled (fun l => l) unit_one curve (after unit_one curve [(bundled, a)] empty_caches) user10 = Ok inst' -> loads inst' q ->
    generated p = generated q /\ forall v, (feasible p v <-> feasible q v) /\ (optimal p v <-> optimal q v).
Proof.
  destruct (C61_ex (fun _ => 0%nat) 0%nat) as (inst & p & comps & C & L & _). destruct made10 as (i0 & C0 & P0). cbn [after] in C0. rewrite C in C0. apply Ok_inj in C0. subst i0.
  assert (NC : forall name, ~ customised (i_params inst) name) by (rewrite P0; exact custom10).
  assert (RL : lookup (i_params inst) ["regions"] = Some (VDict regions10)) by (rewrite P0; exact lookup10).
  assert (DI : default_inputs user10) by (intros q Hq; cbn [In] in Hq; repeat (destruct Hq as [<-|Hq]; [reflexivity|]); destruct Hq).
  exists inst, p. split; [exact C|]. split; [exact L|]. split.
  - exact (bundled_known _ _ _ _ _ _ _ _ _ C distinct10 DI (fun l => Permutation_refl l) py_prints NC RL overrides10 names10 L).
  - intros a inst' q C' L'.
    refine (C66_reproducible_pf py_oracles (fun l => l) unit_one curve [] [(bundled, a)] user10 inst inst' regions10 p q distinct10 DI (fun l => Permutation_refl l) py_prints _ C C' NC RL overrides10 names10 L L').
    intros disk b [I|[]]. injection I as <- <-. reflexivity.
Qed.
