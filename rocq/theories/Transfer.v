(** Moving feasibility between two parameter sets that differ in a few constraints. *)
From Coq Require Import Lra Lia.
From Verif Require Import ModelFacts SoftFacts ModelSpec.

(** Walk through two conjunctions in parallel; leaves the conjuncts that are not convertible. *)
Ltac walk H :=
  lazymatch type of H with
  | Forall _ (_ :: _) => rewrite Forall_cons_iff in H; rewrite Forall_cons_iff; walk H
  | _ /\ _ => let H1 := fresh "H" in destruct H as [H1 H]; split; [first [exact H1 | idtac]|walk H]
  | _ => first [exact H | idtac]
  end.
(** [H : feasible p v |- feasible p' v] *)
Ltac transfer H :=
  rewrite feasible_parts in H; rewrite feasible_parts; cbn zeta in H; cbn zeta;
  unfold holds_l in *;
  let B := fresh "B" in
  destruct H as [H B]; split; [|first [exact B|idtac]]; [
  let He := fresh "He" in let Hs := fresh "Hs" in let Hd := fresh "Hd" in let Hm := fresh "Hm" in
  let Ht := fresh "Ht" in let Hx := fresh "Hx" in let Hf := fresh "Hf" in let Hc := fresh "Hc" in
  let Hw := fresh "Hw" in let Ho := fresh "Ho" in
  destruct H as (He & Hs & Hd & Hm & Ht & Hx & Hf & Hc & Hw & Ho);
  split; [first [exact He | unfold emissions_constraints in *; walk He]|
  split; [first [exact Hs | unfold slr_constraints in *; walk Hs]|
  split; [first [exact Hd | idtac]|
  split; [first [exact Hm | unfold mitigation_constraints in *; walk Hm]|
  split; [first [exact Ht | idtac]|
  split; [first [exact Hx | idtac]|
  split; [first [exact Hf | unfold effort_constraints in *; walk Hf]|
  split; [first [exact Hc | unfold cobbdouglas_constraints in *; walk Hc]|
  split; [first [exact Hw | idtac]|
  first [exact Ho | idtac] ]]]]]]]]] | .. ].
