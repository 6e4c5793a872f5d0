(** C64: the order in which the regions are listed in the configuration has no effect on the plans. *)
From Verif Require Export Setters2 WelfareSpec.
From Coq Require Import Lra Lia Permutation.
Set Bullet Behavior "Strict Subproofs".

(** Expressions that only differ by the order of the terms of sums over regions. *)
Inductive pe : expr -> expr -> Prop :=
| pe_refl e : pe e e
| pe_num x y : x = y -> pe (ENum x) (ENum y)
| pe_sum f l l' : Permutation l l' -> pe (esum f l) (esum f l')
| pe_add a a' b b' : pe a a' -> pe b b' -> pe (EAdd a b) (EAdd a' b')
| pe_sub a a' b b' : pe a a' -> pe b b' -> pe (ESub a b) (ESub a' b')
| pe_mul a a' b b' : pe a a' -> pe b b' -> pe (EMul a b) (EMul a' b')
| pe_div a a' b b' : pe a a' -> pe b b' -> pe (EDiv a b) (EDiv a' b')
| pe_neg a a' : pe a a' -> pe (ENeg a) (ENeg a')
| pe_pow a a' b b' : pe a a' -> pe b b' -> pe (EPow a b) (EPow a' b')
| pe_pown a a' n : pe a a' -> pe (EPowN a n) (EPowN a' n)
| pe_exp a a' : pe a a' -> pe (EExp a) (EExp a')
| pe_atan a a' : pe a a' -> pe (EAtan a) (EAtan a').

Lemma deno_fold v (f : region -> expr) l : forall acc, deno v (fold_left (fun acc r => EAdd acc (f r)) l acc)
  = deno v acc + Rsum (fun r => deno v (f r)) l.
Proof.
  induction l as [|r l IH]; intros acc; cbn [fold_left Rsum fold_right]; [lra|].
  rewrite IH. cbn [deno]. unfold Rsum. lra.
Qed.
Lemma defd_fold v (f : region -> expr) l : forall acc, defd v (fold_left (fun acc r => EAdd acc (f r)) l acc)
  <-> defd v acc /\ forall r, In r l -> defd v (f r).
Proof.
  induction l as [|r l IH]; intros acc; cbn [fold_left].
  - split; [intros H; split; [exact H|intros r []]|tauto].
  - rewrite IH. cbn [defd]. split.
    + intros [[A B] C]. split; [exact A|]. intros q [<-|Q]; auto.
    + intros [A B]. repeat split; [exact A|apply B; left; reflexivity|]. intros q Q. apply B. right. exact Q.
Qed.
Lemma Rsum_perm f l l' : Permutation l l' -> Rsum f l = Rsum f l'.
Proof.
  induction 1 as [|x l l' _ IH|x y l|l l' l'' _ IH1 _ IH2]; cbn [Rsum fold_right]; auto.
  - unfold Rsum in IH. rewrite IH. reflexivity.
  - lra.
  - rewrite IH1. exact IH2.
Qed.
Lemma pe_sound v e e' : pe e e' -> deno v e = deno v e' /\ (defd v e <-> defd v e').
Proof.
  induction 1; cbn [deno defd]; try tauto;
    repeat match goal with H : _ /\ _ |- _ => destruct H as [? ?] end;
    repeat match goal with H : deno v _ = deno v _ |- _ => rewrite H; clear H end; try tauto.
  - unfold esum. rewrite !deno_fold, !defd_fold. split.
    + rewrite (Rsum_perm _ _ _ H). reflexivity.
    + cbn [defd]. split; intros [A B]; (split; [exact A|]); intros r R; apply B;
        [apply Permutation_sym in H|]; eapply Permutation_in; eauto.
Qed.

Inductive po : rule_out -> rule_out -> Prop :=
| po_refl o : po o o
| po_con a a' op b b' : pe a a' -> pe b b' -> po (Con a op b) (Con a' op b').
Lemma po_sound v o o' : po o o' -> (sat v o <-> sat v o').
Proof.
  intros []; [tauto|]. cbn [sat].
  destruct (pe_sound v _ _ H) as [E1 D1], (pe_sound v _ _ H0) as [E2 D2]. rewrite E1, E2. tauto.
Qed.
Inductive pr : result expr -> result expr -> Prop :=
| pr_refl x : pr x x
| pr_ok a a' : pe a a' -> pr (Ok a) (Ok a').
Inductive pc : constr -> constr -> Prop :=
| pc_refl c : pc c c
| pc_g n f f' : (forall t, po (f t) (f' t)) -> pc (GlobalC n f) (GlobalC n f')
| pc_gi n f f' : po f f' -> pc (GlobalInitC n f) (GlobalInitC n f')
| pc_r n f f' : (forall t r, po (f t r) (f' t r)) -> pc (RegionalC n f) (RegionalC n f')
| pc_ri n f f' : (forall r, po (f r) (f' r)) -> pc (RegionalInitC n f) (RegionalInitC n f')
| pc_s n l l' r r' e a i : (forall t g, pr (l t g) (l' t g)) -> (forall t g, pr (r t g) (r' t g)) ->
    pc (RegionalSoftEqC n l r e a i) (RegionalSoftEqC n l' r' e a i).

Lemma pr_soft e a l l' r r' u : pr l l' -> pr r r' -> po (soft_con e a l r u) (soft_con e a l' r' u).
Proof.
  intros [x|x x' X] [y|y y' Y].
  - apply po_refl.
  - destruct x; cbn [soft_con]; [|apply po_refl]. apply po_con; [apply pe_refl|].
    unfold rhs_eps. destruct a; repeat (apply pe_add || apply pe_mul || apply pe_refl || exact Y).
  - destruct y; cbn [soft_con]; [|apply po_refl]. apply po_con; [exact X|apply pe_refl].
  - cbn [soft_con]. apply po_con; [exact X|].
    unfold rhs_eps. destruct a; repeat (apply pe_add || apply pe_mul || exact Y || apply pe_refl).
Qed.

Definition holds (n : nat) (l : list region) (v : point) (c : constr) : Prop :=
  forall nc, In nc (to_pyomo c) -> con_holds n l v (snd nc).

Lemma holds_g n l v nm f : holds n l v (GlobalC nm f) <-> forall t, (t <= n)%nat -> sat v (f t).
Proof.
  unfold holds. cbn [to_pyomo]. split.
  - intros H t T. apply (H _ (or_introl eq_refl)). cbn [snd outputs]. apply in_map. apply in_seq. lia.
  - intros H nc [<-|[]] o O. cbn [snd outputs] in O. apply in_map_iff in O. destruct O as (t & <- & T).
    apply in_seq in T. apply H. lia.
Qed.
Lemma con_r n l v f : con_holds n l v (PCtr f) <-> forall t r, (t <= n)%nat -> In r l -> sat v (f t r).
Proof.
  split.
  - intros H t r T R. apply H. cbn [outputs]. apply in_flat_map. exists t. split; [apply in_seq; lia|].
    apply in_map. exact R.
  - intros H o O. cbn [outputs] in O. apply in_flat_map in O. destruct O as (t & T & O).
    apply in_map_iff in O. destruct O as (r & <- & R). apply in_seq in T. apply H; [lia|exact R].
Qed.
Lemma con_ri n l v f : con_holds n l v (PCr f) <-> forall r, In r l -> sat v (f r).
Proof.
  split.
  - intros H r R. apply H. cbn [outputs]. apply in_map. exact R.
  - intros H o O. cbn [outputs] in O. apply in_map_iff in O. destruct O as (r & <- & R). apply H. exact R.
Qed.

Lemma con_r_iff n l l' v f f' : (forall r, In r l <-> In r l') ->
  (forall t r, sat v (f t r) <-> sat v (f' t r)) -> (con_holds n l v (PCtr f) <-> con_holds n l' v (PCtr f')).
Proof.
  intros L E. rewrite !con_r. split; intros H t r T R; apply E; apply H; auto; apply L; exact R.
Qed.
Lemma con_ri_iff n l l' v f f' : (forall r, In r l <-> In r l') ->
  (forall r, sat v (f r) <-> sat v (f' r)) -> (con_holds n l v (PCr f) <-> con_holds n l' v (PCr f')).
Proof.
  intros L E. rewrite !con_ri. split; intros H r R; apply E; apply H; auto; apply L; exact R.
Qed.
Lemma holds1 n l v m k c : to_pyomo c = [(m, k)] -> (holds n l v c <-> con_holds n l v k).
Proof.
  intros E. unfold holds. rewrite E. split; [intros H; exact (H _ (or_introl eq_refl))|intros H nc [<-|[]]; exact H].
Qed.
Lemma holds2 n l v m k m' k' c : to_pyomo c = [(m, k); (m', k')] ->
  (holds n l v c <-> con_holds n l v k /\ con_holds n l v k').
Proof.
  intros E. unfold holds. rewrite E. split.
  - intros H. split; [exact (H _ (or_introl eq_refl))|exact (H _ (or_intror (or_introl eq_refl)))].
  - intros [A B] nc [<-|[<-|[]]]; assumption.
Qed.

Lemma holds_pc n l l' v c c' : (forall r, In r l <-> In r l') -> pc c c' -> (holds n l v c <-> holds n l' v c').
Proof.
  intros L P. destruct P.
  - unfold holds. assert (E : forall k, con_holds n l v k <-> con_holds n l' v k).
    { intros [f|f|f|f]; [reflexivity|reflexivity| |].
      - apply con_r_iff; [exact L|reflexivity].
      - apply con_ri_iff; [exact L|reflexivity]. }
    split; intros H nc N; apply E; apply H; exact N.
  - rewrite !holds_g. split; intros K t T; [rewrite <- (po_sound v _ _ (H t))|rewrite (po_sound v _ _ (H t))]; auto.
  - rewrite (holds1 n l v _ _ (GlobalInitC n0 f) eq_refl), (holds1 n l' v _ _ (GlobalInitC n0 f') eq_refl). unfold con_holds. cbn [outputs]. split; intros K o [<-|[]];
      [rewrite <- (po_sound v _ _ H)|rewrite (po_sound v _ _ H)]; apply K; left; reflexivity.
  - rewrite (holds1 n l v _ _ (RegionalC n0 f) eq_refl), (holds1 n l' v _ _ (RegionalC n0 f') eq_refl). apply con_r_iff; [exact L|]. intros t r. apply po_sound, H.
  - rewrite (holds1 n l v _ _ (RegionalInitC n0 f) eq_refl), (holds1 n l' v _ _ (RegionalInitC n0 f') eq_refl). apply con_ri_iff; [exact L|]. intros r. apply po_sound, H.
  - rewrite (holds2 n l v _ _ _ _ (RegionalSoftEqC n0 l0 r e a i) eq_refl), (holds2 n l' v _ _ _ _ (RegionalSoftEqC n0 l'0 r' e a i) eq_refl).
    assert (X : forall u,
      con_holds n l v (PCtr (fun t g => if negb (i t g) then soft_con e a (l0 t g) (r t g) u else Skip)) <->
      con_holds n l' v (PCtr (fun t g => if negb (i t g) then soft_con e a (l'0 t g) (r' t g) u else Skip))).
    { intros u. apply con_r_iff; [exact L|]. intros t g. destruct (negb (i t g)); [|reflexivity].
      apply po_sound, pr_soft; auto. }
    rewrite (X true), (X false). reflexivity.
Qed.

Lemma holds_all n l l' v cs cs' : (forall r, In r l <-> In r l') -> Forall2 pc cs cs' ->
  ((forall c nc, In c cs -> In nc (to_pyomo c) -> con_holds n l v (snd nc)) <->
   (forall c nc, In c cs' -> In nc (to_pyomo c) -> con_holds n l' v (snd nc))).
Proof.
  intros L F.
  transitivity (Forall (holds n l v) cs); [rewrite Forall_forall; unfold holds; split; eauto|].
  transitivity (Forall (holds n l' v) cs'); [|rewrite Forall_forall; unfold holds; split; eauto].
  induction F as [|c c' cs cs' P F IH]; [split; constructor|].
  split; intros H; inversion H; subst; constructor; try (apply IH; assumption);
    eapply (holds_pc n l l' v); eauto.
Qed.

Section Order.
  Variable p : pars.
  Variable l : list region.
  Hypothesis HP : Permutation (regions p) l.
  Let q := with_regions l p.

  Ltac pp := first [ assumption | apply pe_refl | apply pe_sum; exact HP
    | apply pe_num | apply pe_add | apply pe_sub | apply pe_mul | apply pe_div | apply pe_neg | apply pe_pow | apply pe_pown
    | apply pe_exp | apply pe_atan ].

  Ltac pol := repeat (apply po_refl || apply po_con || pp).
  Ltac lst := repeat (apply Forall2_cons; [first [apply pc_refl | idtac]|]); try apply Forall2_nil.

  Lemma rsum_q f : Rsum f (regions p) = Rsum f l.
  Proof. apply Rsum_perm, HP. Qed.

  Lemma perm_emissions : Forall2 pc (emissions_constraints p) (emissions_constraints q).
  Proof.
    unfold emissions_constraints. lst.
    - apply pc_g. intros t. unfold c_global_emissions. destruct (Nat.ltb 0 t); pol.
    - apply pc_gi. unfold c_global_emissions_init. pol.
    - apply pc_g. intros t. unfold c_relative_cumulative_emissions. destruct (Nat.ltb 0 t); pol.
      unfold cumulative_global_baseline_emissions. apply rsum_q.
    - apply pc_g. intros t. unfold c_global_inertia. cbn [with_regions q inertia_global].
      destruct (inertia_global p); [|apply po_refl]. destruct t; cbn [prev]; pol.
  Qed.
  Lemma perm_mitigation : Forall2 pc (mitigation_constraints p) (mitigation_constraints q).
  Proof.
    unfold mitigation_constraints. lst.
    - apply pc_g. intros t. unfold c_global_rel_mitigation_costs. pol.
    - apply pc_g. intros t. unfold c_emission_reduction_per_cost_unit, soft_min, soft_switch. destruct (Nat.ltb 0 t); pol.
    - apply pc_g. intros t. unfold c_cost_per_emission_reduction_unit, soft_min, soft_switch. destruct (Nat.ltb 0 t); pol.
    - apply pc_g. intros t. unfold c_LBD, soft_min, soft_switch.
      assert (E : cumulative_global_baseline_emissions q t = cumulative_global_baseline_emissions p t)
        by (symmetry; apply rsum_q).
      rewrite E. apply po_refl.
  Qed.
  Lemma perm_trade : Forall2 pc (trade_constraints p) (trade_constraints q).
  Proof.
    unfold trade_constraints. cbn [with_regions q trade]. destruct (trade p); [constructor| |].
    - unfold globalcostpool_constraints. lst. apply pc_g. intros t. unfold c_sum_abatement. pol.
    - unfold emissiontrade_constraints. lst.
      + apply pc_g. intros t. unfold c_global_carbonprice. pol.
      + apply pc_g. intros t. unfold c_sum_cost_balance. pol.
  Qed.
  Lemma perm_transfer : Forall2 pc (transfer_constraints p) (transfer_constraints q).
  Proof.
    unfold transfer_constraints. cbn [with_regions q transfer]. destruct (transfer p); [constructor|].
    lst. apply pc_g. intros t. unfold c_zero_sum_transfer. destruct (Nat.ltb 0 t); pol.
  Qed.
  Lemma share_q t r : percapconv_share p t r = percapconv_share q t r.
  Proof.
    unfold percapconv_share. cbn zeta.
    assert (A : percapconv_share_pop p t r = percapconv_share_pop q t r)
      by (unfold percapconv_share_pop; cbn [with_regions q population regions]; rewrite rsum_q; reflexivity).
    assert (B : percapconv_share_init p r = percapconv_share_init q r)
      by (unfold percapconv_share_init; cbn [with_regions q baseline_emissions regions]; rewrite rsum_q; reflexivity).
    rewrite A, B. reflexivity.
  Qed.
  Lemma perm_effort : Forall2 pc (effort_constraints p) (effort_constraints q).
  Proof.
    unfold effort_constraints. lst. apply pc_s; intros t r; [|apply pr_refl].
    rewrite share_q. apply pr_refl.
  Qed.
  Lemma perm_welfare : Forall2 pc (welfare_constraints p) (welfare_constraints q).
  Proof.
    unfold welfare_constraints. cbn [with_regions q welfare]. destruct (welfare p); lst.
    - apply pc_g. intros t. unfold c_wlm_welfare. pol.
    - apply pc_g. intros t. unfold c_cm_welfare, calc_utility, pop_sumE, soft_min, soft_switch. pol.
    - apply pc_g. intros t. unfold c_iag_welfare, calc_utility, pop_sumE, soft_min, soft_switch. pol.
  Qed.
  Lemma perm_objective : Forall2 pc (objective_constraints p) (objective_constraints q).
  Proof.
    unfold objective_constraints. cbn [with_regions q objective]. destruct (objective p); lst.
    apply pc_g. intros t. unfold c_NPV_costs. destruct (Nat.ltb 0 t); [|apply po_refl]. destruct t; cbn [prev]; pol.
  Qed.
  Lemma perm_refl (cs : list constr) : Forall2 pc cs cs.
  Proof. induction cs; constructor; [apply pc_refl|assumption]. Qed.
  Lemma perm_all : Forall2 pc (all_constraints p) (all_constraints q).
  Proof.
    unfold all_constraints.
    apply Forall2_app; [exact perm_emissions|].
    apply Forall2_app; [exact (perm_refl _)|].
    apply Forall2_app; [exact (perm_refl _)|].
    apply Forall2_app; [exact perm_mitigation|].
    apply Forall2_app; [exact perm_trade|].
    apply Forall2_app; [exact perm_transfer|].
    apply Forall2_app; [exact perm_effort|].
    apply Forall2_app; [exact (perm_refl _)|].
    apply Forall2_app; [exact perm_welfare|exact perm_objective].
  Qed.
End Order.

Lemma C64_region_order_pf : forall p l v, Permutation (regions p) l ->
  (feasible (with_regions l p) v <-> feasible p v).
Proof.
  intros p l v HP.
  assert (L : forall r, In r (regions p) <-> In r l)
    by (intros r; split; apply Permutation_in; [exact HP|apply Permutation_sym, HP]).
  unfold feasible.
  pose proof (holds_all (tf p) (regions p) l v _ _ L (perm_all p l HP)) as E.
  assert (B : var_bounds p v <-> var_bounds (with_regions l p) v).
  { unfold var_bounds. split; intros H t T; specialize (H t T); destruct H as (h1 & h2 & h3 & h4 & h5);
      (do 4 (split; [assumption|])); intros r R; apply L in R; apply (h5 r R). }
  cbn [with_regions regions tf]. tauto.
Qed.

Lemma C64_region_order_optimal_pf : forall p l v, Permutation (regions p) l ->
  (optimal (with_regions l p) v <-> optimal p v).
Proof.
  intros p l v HP. unfold optimal. split; intros [A B]; (split; [apply (C64_region_order_pf p l v HP); exact A|]);
    intros w W; apply B; apply (C64_region_order_pf p l w HP); exact W.
Qed.
