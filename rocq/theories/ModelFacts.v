(** From "feasible" to the individual equations, and back. *)
From Coq Require Import Lra Lia.
From Verif Require Export Model.

Lemma Rleb_true x y : Rleb x y = true <-> x <= y.
Proof. unfold Rleb. destruct (Rle_dec x y); split; auto; discriminate. Qed.
Lemma Rleb_false x y : Rleb x y = false <-> y < x.
Proof. unfold Rleb. destruct (Rle_dec x y); split; auto; try discriminate; lra. Qed.
Lemma Rltb_true x y : Rltb x y = true <-> x < y.
Proof. unfold Rltb. destruct (Rlt_dec x y); split; auto; discriminate. Qed.
Lemma Rltb_false x y : Rltb x y = false <-> y <= x.
Proof. unfold Rltb. destruct (Rlt_dec x y); split; auto; try discriminate; lra. Qed.
Lemma Reqb_true x y : Reqb x y = true <-> x = y.
Proof. unfold Reqb. destruct (Req_EM_T x y); split; auto; discriminate. Qed.
Lemma Reqb_false x y : Reqb x y = false <-> x <> y.
Proof. unfold Reqb. destruct (Req_EM_T x y); split; auto; try discriminate; tauto. Qed.

(** ** sums *)
Lemma fold_esum v (f : region -> expr) l acc :
  deno v (fold_left (fun acc r => EAdd acc (f r)) l acc) = deno v acc + Rsum (fun r => deno v (f r)) l.
Proof.
  revert acc; induction l as [|r l IH]; intros acc; cbn [fold_left Rsum fold_right]; [lra|].
  rewrite IH. cbn. unfold Rsum. lra.
Qed.
Lemma deno_esum v (f : region -> expr) l : deno v (esum f l) = Rsum (fun r => deno v (f r)) l.
Proof. unfold esum. rewrite fold_esum. cbn. lra. Qed.
Lemma defd_fold v (f : region -> expr) l acc :
  defd v (fold_left (fun acc r => EAdd acc (f r)) l acc) <-> defd v acc /\ forall r, In r l -> defd v (f r).
Proof.
  revert acc; induction l as [|r l IH]; intros acc; cbn [fold_left].
  - split; [intros H; split; [exact H|intros r []]|intros [H _]; exact H].
  - rewrite IH. cbn. split.
    + intros [[A B] C]. split; auto. intros s [<-|]; auto.
    + intros [A B]. auto.
Qed.
Lemma defd_esum v f l : defd v (esum f l) <-> forall r, In r l -> defd v (f r).
Proof. unfold esum. rewrite defd_fold. cbn. tauto. Qed.

Lemma Rsum_cons f r l : Rsum f (r :: l) = f r + Rsum f l.
Proof. reflexivity. Qed.
Lemma Rsum_nil f : Rsum f [] = 0.
Proof. reflexivity. Qed.
Ltac rsum_ind l := induction l as [|r l IH]; [rewrite ?Rsum_nil; try lra|rewrite ?Rsum_cons].
Lemma Rsum_ext f g l : (forall r, In r l -> f r = g r) -> Rsum f l = Rsum g l.
Proof. rsum_ind l; intros H; auto. rewrite H, IH; cbn; auto. intros; apply H; cbn; auto. Qed.
Lemma Rsum_plus f g l : Rsum (fun r => f r + g r) l = Rsum f l + Rsum g l.
Proof. rsum_ind l. rewrite IH. lra. Qed.
Lemma Rsum_minus f g l : Rsum (fun r => f r - g r) l = Rsum f l - Rsum g l.
Proof. rsum_ind l. rewrite IH. lra. Qed.
Lemma Rsum_scal c f l : Rsum (fun r => c * f r) l = c * Rsum f l.
Proof. rsum_ind l. rewrite IH. lra. Qed.
Lemma Rsum_div c f l : Rsum (fun r => f r / c) l = Rsum f l / c.
Proof. rsum_ind l. rewrite IH. unfold Rdiv. lra. Qed.
Lemma Rsum_const0 l : Rsum (fun _ => 0) l = 0.
Proof. rsum_ind l. rewrite IH. lra. Qed.
Lemma Rsum_le f g l : (forall r, In r l -> f r <= g r) -> Rsum f l <= Rsum g l.
Proof.
  rsum_ind l; intros H.
  apply Rplus_le_compat; [apply H; left; auto|]. apply IH. intros; apply H; right; auto.
Qed.
Lemma Rsum_lt f g l r0 :
  (forall r, In r l -> f r <= g r) -> In r0 l -> f r0 < g r0 -> Rsum f l < Rsum g l.
Proof.
  rsum_ind l; intros H [] Hlt; rewrite ?Rsum_cons.
  - subst. apply Rplus_lt_le_compat; auto. apply Rsum_le; intros; apply H; right; auto.
  - apply Rplus_le_lt_compat; [apply H; left; auto|]. apply IH; auto. intros; apply H; right; auto.
Qed.
Lemma Rsum_nonneg f l : (forall r, In r l -> 0 <= f r) -> 0 <= Rsum f l.
Proof. intros. rewrite <- (Rsum_const0 l). apply Rsum_le; auto. Qed.
Lemma Rsum_pos f l : l <> [] -> (forall r, In r l -> 0 < f r) -> 0 < Rsum f l.
Proof.
  destruct l as [|r l]; [congruence|]. intros _ H.
  rewrite <- (Rsum_const0 (r :: l)).
  apply Rsum_lt with (r0 := r); [intros s Hs; left; apply H; auto|left; auto|apply H; left; auto].
Qed.

(** ** membership *)
Section Members.
  Variable p : pars.
  Lemma all_in c :
    In c (emissions_constraints p) \/ In c (slr_constraints p) \/ In c (damage_constraints p) \/
    In c (mitigation_constraints p) \/ In c (trade_constraints p) \/ In c (transfer_constraints p) \/
    In c (effort_constraints p) \/ In c (cobbdouglas_constraints p) \/ In c (welfare_constraints p) \/
    In c (objective_constraints p) <-> In c (all_constraints p).
  Proof. unfold all_constraints. rewrite !in_app_iff. tauto. Qed.
End Members.

(** what one constraint object demands *)
Definition holds_c (tfin : nat) (regs : list region) (v : point) (c : constr) : Prop :=
  match c with
  | GlobalC _ f => forall t, (t <= tfin)%nat -> sat v (f t)
  | GlobalInitC _ o => sat v o
  | RegionalC _ f => forall t r, (t <= tfin)%nat -> In r regs -> sat v (f t r)
  | RegionalInitC _ f => forall r, In r regs -> sat v (f r)
  | RegionalSoftEqC _ l rh e a ig =>
      forall t r, (t <= tfin)%nat -> In r regs -> ig t r = false ->
        sat v (soft_con e a (l t r) (rh t r) true) /\ sat v (soft_con e a (l t r) (rh t r) false)
  end.

Lemma con_holds_tr tfin regs v f :
  con_holds tfin regs v (PCtr f) <-> (forall t r, (t <= tfin)%nat -> In r regs -> sat v (f t r)).
Proof.
  unfold con_holds. cbn [outputs]. split.
  - intros H t r Ht Hr. apply H. apply in_flat_map. exists t. split; [apply in_seq; lia|].
    apply in_map; auto.
  - intros H o Ho. apply in_flat_map in Ho as [t [Ht Ho]]. apply in_map_iff in Ho as [r [<- Hr]].
    apply in_seq in Ht. apply H; auto; lia.
Qed.
Lemma con_holds_t tfin regs v f :
  con_holds tfin regs v (PCt f) <-> (forall t, (t <= tfin)%nat -> sat v (f t)).
Proof.
  unfold con_holds. cbn [outputs]. split.
  - intros H t Ht. apply H. apply in_map. apply in_seq. lia.
  - intros H o Ho. apply in_map_iff in Ho as [t [<- Ht]]. apply in_seq in Ht. apply H; lia.
Qed.
Lemma con_holds_r tfin regs v f :
  con_holds tfin regs v (PCr f) <-> (forall r, In r regs -> sat v (f r)).
Proof.
  unfold con_holds. cbn [outputs]. split.
  - intros H r Hr. apply H. apply in_map; auto.
  - intros H o Ho. apply in_map_iff in Ho as [t [<- Ht]]. auto.
Qed.
Lemma con_holds_0 tfin regs v o : con_holds tfin regs v (PC0 o) <-> sat v o.
Proof. unfold con_holds. cbn. split; [auto|]. intros H o' [<-|[]]; auto. Qed.

Lemma holds_c_spec tfin regs v c :
  (forall nc, In nc (to_pyomo c) -> con_holds tfin regs v (snd nc)) <-> holds_c tfin regs v c.
Proof.
  destruct c as [n f|n f|n f|n f|n l rh e a ig]; cbn [to_pyomo holds_c].
  - rewrite <- (con_holds_t tfin regs). cbn. split; [intros H; apply (H _ (or_introl eq_refl))|intros H nc [<-|[]]; auto].
  - rewrite <- (con_holds_0 tfin regs). cbn. split; [intros H; apply (H _ (or_introl eq_refl))|intros H nc [<-|[]]; auto].
  - rewrite <- con_holds_tr. cbn. split; [intros H; apply (H _ (or_introl eq_refl))|intros H nc [<-|[]]; auto].
  - rewrite <- (con_holds_r tfin). cbn. split; [intros H; apply (H _ (or_introl eq_refl))|intros H nc [<-|[]]; auto].
  - split.
    + intros H t r Ht Hr Hig.
      pose proof (H _ (or_introl eq_refl)) as H1.
      pose proof (H _ (or_intror (or_introl eq_refl))) as H2.
      cbn [snd] in H1, H2. rewrite con_holds_tr in H1, H2.
      specialize (H1 t r Ht Hr). specialize (H2 t r Ht Hr). rewrite Hig in H1, H2. auto.
    + intros H nc [<-|[<-|[]]]; cbn [snd]; rewrite con_holds_tr; intros t r Ht Hr;
        (destruct (ig t r) eqn:Hig; cbn [negb]; [exact I|]); apply (H t r Ht Hr Hig).
Qed.

Lemma feasible_iff p v :
  feasible p v <-> (forall c, In c (all_constraints p) -> holds_c (tf p) (regions p) v c) /\ var_bounds p v.
Proof.
  unfold feasible. split; intros [A B]; split; auto.
  - intros c Hc. apply holds_c_spec. intros nc. apply A; auto.
  - intros c nc Hc. apply holds_c_spec; auto.
Qed.

(** component-wise form: easier to rebuild a feasible point *)
Definition holds_l tfin regs v (l : list constr) : Prop := Forall (holds_c tfin regs v) l.
Lemma feasible_parts p v :
  feasible p v <->
  (let H := holds_l (tf p) (regions p) v in
   H (emissions_constraints p) /\ H (slr_constraints p) /\ H (damage_constraints p) /\
   H (mitigation_constraints p) /\ H (trade_constraints p) /\ H (transfer_constraints p) /\
   H (effort_constraints p) /\ H (cobbdouglas_constraints p) /\ H (welfare_constraints p) /\
   H (objective_constraints p)) /\ var_bounds p v.
Proof.
  rewrite feasible_iff. rewrite <- Forall_forall. unfold all_constraints, holds_l.
  rewrite !Forall_app. cbn zeta. tauto.
Qed.

Lemma feas_c p v c : feasible p v -> In c (all_constraints p) -> holds_c (tf p) (regions p) v c.
Proof. rewrite feasible_iff. intros [H _]. apply H. Qed.

(** [in_list]: close [In c [c1; ...; c; ...]] *)
Ltac in_list := cbn [In app]; repeat first [left; reflexivity | right]; fail.
Ltac in_emissions := rewrite <- all_in; left; unfold emissions_constraints; in_list.
Ltac in_slr := rewrite <- all_in; right; left; unfold slr_constraints; in_list.
Ltac in_damage := rewrite <- all_in; right; right; left.
Ltac in_mitigation := rewrite <- all_in; do 3 right; left; unfold mitigation_constraints; in_list.
Ltac in_trade := rewrite <- all_in; do 4 right; left.
Ltac in_transfer := rewrite <- all_in; do 5 right; left.
Ltac in_effort := rewrite <- all_in; do 6 right; left; unfold effort_constraints; in_list.
Ltac in_cobb := rewrite <- all_in; do 7 right; left; unfold cobbdouglas_constraints; in_list.
Ltac in_welfare := rewrite <- all_in; do 8 right; left.
Ltac in_objective := rewrite <- all_in; do 9 right; unfold objective_constraints; in_list.
