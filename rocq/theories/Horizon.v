(** C63: the plan of a longer run, looked at up to an earlier year, is a plan of the shorter run. *)
From Verif Require Export Setters2 VarFacts WelfareSpec.
From Coq Require Import Lra Lia.

Lemma constraints_with_tf n p : all_constraints (with_tf n p) = all_constraints p.
Proof. reflexivity. Qed.

Lemma outputs_mono n m regs c o : (n <= m)%nat -> In o (outputs n regs c) -> In o (outputs m regs c).
Proof.
  intros L. destruct c as [f|f|f|f]; cbn [outputs]; auto.
  - rewrite !in_map_iff. intros (t & <- & K). exists t. split; auto. apply in_seq in K. apply in_seq. lia.
  - rewrite !in_flat_map. intros (t & K & J). exists t. split; auto. apply in_seq in K. apply in_seq. lia.
Qed.

Lemma C63_shorter_horizon_pf : forall p n v, feasible p v -> (n <= tf p)%nat -> feasible (with_tf n p) v.
Proof.
  intros p n v [A B] L. split.
  - rewrite constraints_with_tf. intros c nc Hc Hnc o Ho. apply (A c nc Hc Hnc o).
    eapply outputs_mono; [exact L|exact Ho].
  - intros t Ht. apply (B t). cbn in Ht. lia.
Qed.

Lemma C63_longer_run_no_better_pf : forall p n v w,
  optimal (with_tf n p) v -> feasible p w -> (n <= tf p)%nat ->
  (objective p = utility -> gval w g_NPV n <= gval v g_NPV n) /\
  (objective p = globalcosts -> gval v g_NPV n <= gval w g_NPV n).
Proof.
  intros p n v w [_ O] F L. pose proof (O w (C63_shorter_horizon_pf p n w F L)) as K.
  unfold better, maximise, objective_value in K. cbn in K.
  split; intros E; rewrite E in K; exact K.
Qed.
