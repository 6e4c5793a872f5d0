(** C70: shifting a little abatement from one region to another, and the first-order condition of optimal plans. *)
From Coq Require Import Reals List String Lra Lia.
From Verif Require Import ModelFacts SoftFacts ModelSpec PowFacts Equations Equations2 Build VarFacts EconLemmas BuildFacts BuildLemmas DefinedFacts
  SolveFacts ClimateSpec ClimateLemmas WelfareSpec WelfareLemmas MitigationLemmas PolicySpec PolicyLemmas Simulate SimFacts ExistSpec ExistFacts ExistLemmas ReallocateSpec Reallocate.
Import ListNotations.
Open Scope R_scope.
Set Bullet Behavior "Strict Subproofs".

(** *** Sums that differ for two regions *)
Lemma Rsum_single (r : region) x l : NoDup l -> Rsum (fun q => if String.eqb q r then x else 0) l = if in_dec string_dec r l then x else 0.
Proof.
  induction l as [|q l IH]; intros ND; [reflexivity|]. inversion ND as [|? ? NI ND']; subst. rewrite Rsum_cons, IH by auto.
  destruct (String.eqb_spec q r) as [->|NE].
  - destruct (in_dec string_dec r l) as [I|_]; [contradiction|]. destruct (in_dec string_dec r (r :: l)) as [_|X]; [lra|exfalso; apply X; left; reflexivity].
  - destruct (in_dec string_dec r l) as [I|NI']; destruct (in_dec string_dec r (q :: l)) as [J|NJ]; try lra.
    + exfalso. apply NJ. right. exact I.
    + exfalso. destruct J as [J|J]; [apply NE; exact J|contradiction].
Qed.
Lemma Rsum_two (f g : region -> R) r s l : NoDup l -> In r l -> In s l -> r <> s -> (forall q, In q l -> q <> r -> q <> s -> f q = g q) ->
  Rsum f l = Rsum g l + (f r - g r) + (f s - g s).
Proof.
  intros ND Hr Hs NE E.
  rewrite (Rsum_ext f (fun q => g q + ((if String.eqb q r then f r - g r else 0) + (if String.eqb q s then f s - g s else 0)))).
  - rewrite !Rsum_plus, !Rsum_single by auto. destruct (in_dec string_dec r l); [|contradiction]. destruct (in_dec string_dec s l); [|contradiction]. ring.
  - intros q Hq. destruct (String.eqb_spec q r) as [E1|N1]; destruct (String.eqb_spec q s) as [E2|N2].
    + exfalso. apply NE. congruence.
    + subst q. lra.
    + subst q. lra.
    + rewrite (E q Hq N1 N2). lra.
Qed.

(** *** Small changes *)
Definition soon (P : R -> Prop) : Prop := exists e, 0 < e /\ forall d, 0 <= d < e -> P d.
Lemma soon_and P Q : soon P -> soon Q -> soon (fun d => P d /\ Q d).
Proof.
  intros (e & He & HP) (e' & He' & HQ). exists (Rmin e e'). split; [apply Rmin_glb_lt; auto|]. intros d [D0 Hd].
  pose proof (Rmin_l e e'). pose proof (Rmin_r e e'). split; [apply HP|apply HQ]; lra.
Qed.
Lemma soon_true (P : R -> Prop) : (forall d, 0 <= d -> P d) -> soon P.
Proof. intros H. exists 1. split; [lra|]. intros d [D _]. auto. Qed.
Lemma soon_imp (P Q : R -> Prop) : soon P -> (forall d, 0 <= d -> P d -> Q d) -> soon Q.
Proof. intros (e & He & H) I. exists e. split; [auto|]. intros d D. apply I; [lra|auto]. Qed.
Lemma soon_cont f c : continuity_pt f 0 -> f 0 < c -> soon (fun d => f d < c).
Proof.
  intros C L. destruct (C (c - f 0) ltac:(lra)) as (e & He & H). exists e. split; [lra|]. intros d Hd.
  destruct (Req_dec d 0) as [->|N]; [exact L|]. assert (Q : Rabs (f d - f 0) < c - f 0).
  { apply H. split; [split; [exact I|auto]|]. cbn. unfold R_dist. replace (d - 0) with d by lra. rewrite Rabs_right; lra. }
  apply Rabs_def2 in Q. lra.
Qed.
Lemma soon_lin A B c : A < c -> soon (fun d => A + B * d < c).
Proof. intros L. apply (soon_cont (fun d => A + B * d)); [reg|lra]. Qed.
(** A condition for every value of an optional limit *)
Lemma soon_option (o : option R) (P : R -> R -> Prop) : (forall l, o = Some l -> soon (P l)) -> soon (fun d => forall l, o = Some l -> P l d).
Proof.
  intros H. destruct o as [l|].
  - eapply soon_imp; [exact (H l eq_refl)|]. intros d _ Hd l' E. injection E as <-. exact Hd.
  - apply soon_true. intros d _ l E. discriminate E.
Qed.
Lemma soon_if (Q : Prop) (P : R -> Prop) : {Q} + {~ Q} -> (Q -> soon P) -> soon (fun d => Q -> P d).
Proof. intros [q|nq] H; [eapply soon_imp; [exact (H q)|auto]|apply soon_true; intros d _ q; contradiction]. Qed.

Section Exchange.
  Variables (p : pars) (v : point) (t0 : nat) (r s : region).
  Hypotheses (F : feasible p v) (NR : numeric_ranges p) (SD : sound_data p) (U : usable_choices p) (SL : slr_logistic_ok p) (Al : 0 <= alpha p < 1).
  Hypotheses (UC : use_carbon_intensity p = false) (ER : effort_regime p = noregime) (NT : transfer p = notransfer) (ND : NoDup (regions p)).
  Hypotheses (MS : forall q, In q (regions p) -> 0 <= MAC_scaling p q) (MG : 0 <= MAC_gamma p) (ML : rel_mitigation_costs_min_level p <= 0).
  Hypothesis BE : forall t q, model_step p t -> In q (regions p) -> 0 <= baseline_emissions p t q.
  Hypotheses (T0r : (1 <= t0 <= tf p)%nat) (Hr : In r (regions p)) (Hs : In s (regions p)) (NE : r <> s).
  Hypotheses (Er : 0 < baseline_emissions p t0 r) (Es : 0 < baseline_emissions p t0 s).
  Hypotheses (Rr : can_abate_more p v t0 r) (Rs : can_abate_less p v t0 s).
  Notation ab := (relative_abatement v).
  (** Region [r] abates [d] more in step [t0], region [s] as much less. *)
  Definition change (d : R) (t : nat) (q : region) : R :=
    if Nat.eqb t t0 then (if String.eqb q r then d / baseline_emissions p t0 r else if String.eqb q s then - (d / baseline_emissions p t0 s) else 0) else 0.
  Definition shifted (d : R) (t : nat) (q : region) : R := match t with O => 0 | S _ => ab t q + change d t q end.
  Lemma change_r d : change d t0 r = d / baseline_emissions p t0 r.
  Proof. unfold change. rewrite Nat.eqb_refl, String.eqb_refl. reflexivity. Qed.
  Lemma change_s d : change d t0 s = - (d / baseline_emissions p t0 s).
  Proof. unfold change. rewrite Nat.eqb_refl. destruct (String.eqb_spec s r) as [E|_]; [exfalso; apply NE; auto|]. rewrite String.eqb_refl. reflexivity. Qed.
  Lemma change_other d t q : ~ (t = t0 /\ (q = r \/ q = s)) -> change d t q = 0.
  Proof.
    intros N. unfold change. destruct (Nat.eqb_spec t t0); [|reflexivity]. destruct (String.eqb_spec q r); [exfalso; apply N; auto|].
    destruct (String.eqb_spec q s); [exfalso; apply N; auto|reflexivity].
  Qed.
  Lemma v_em t q : (1 <= t <= tf p)%nat -> In q (regions p) -> regional_emissions v t q = (1 - ab t q) * baseline_emissions p t q.
  Proof.
    intros Ht Hq. unfold regional_emissions, relative_abatement. rewrite (q_abatement p v F t q ltac:(lia) Hq), (q_baseline p v F t q ltac:(lia) Hq), UC. reflexivity.
  Qed.
  Notation em d t q := (match t%nat with O => baseline_emissions p 0 q | S _ => (1 - shifted d t q) * baseline_emissions p t q end).
  Lemma s_em_change d t q : (t <= tf p)%nat -> In q (regions p) -> em d t q = regional_emissions v t q - change d t q * baseline_emissions p t q.
  Proof.
    intros Ht Hq. destruct t as [|t].
    - rewrite change_other by lia. unfold regional_emissions. rewrite (q_emissions0 p v F q Hq). lra.
    - rewrite v_em by (auto; lia). unfold shifted. lra.
  Qed.
  Lemma s_em_later d t q : (1 <= t <= tf p)%nat -> In q (regions p) -> (1 - shifted d t q) * baseline_emissions p t q = regional_emissions v t q - change d t q * baseline_emissions p t q.
  Proof. intros Ht Hq. pose proof (s_em_change d t q ltac:(lia) Hq) as E. destruct t as [|t]; [exfalso; lia|exact E]. Qed.
  Lemma shifted_sum d t : (1 <= t <= tf p)%nat -> Rsum (fun q => (1 - shifted d t q) * baseline_emissions p t q) (regions p) = global_emissions v t.
  Proof.
    intros Ht. unfold global_emissions. rewrite (q_global p v F t ltac:(lia)). destruct (Nat.eq_dec t t0) as [->|N].
    - rewrite (Rsum_two _ (rval v v_regional_emissions t0) r s (regions p) ND Hr Hs NE).
      + rewrite (s_em_later d t0 r T0r Hr), (s_em_later d t0 s T0r Hs), change_r, change_s. unfold regional_emissions. field. lra.
      + intros q Hq N1 N2. rewrite (s_em_later d t0 q T0r Hq), change_other by tauto. unfold regional_emissions. lra.
    - apply Rsum_ext. intros q Hq. rewrite (s_em_later d t q Ht Hq), change_other by tauto. unfold regional_emissions. lra.
  Qed.
  (** The shift is possible if it is small. *)
  Definition fits (q : region) (x : R) : Prop :=   (* region q with abatement changed by x *)
    0 <= ab t0 q + x <= 5/2 /\ learning_factor v t0 * MAC_scaling p q * MAC_gamma p * pypow (ab t0 q + x) (MAC_beta p) <= 2 * MAC_gamma p /\
    (forall l, regional_min_level p = Some l -> l <= regional_emissions v t0 q - x * baseline_emissions p t0 q) /\
    (forall i, inertia_regional p = Some i -> dt p * i * baseline_emissions p 0 q <= regional_emissions v t0 q - x * baseline_emissions p t0 q - regional_emissions v (Nat.pred t0) q) /\
    (forall i, inertia_regional p = Some i -> (S t0 <= tf p)%nat -> dt p * i * baseline_emissions p 0 q <= regional_emissions v (S t0) q - (regional_emissions v t0 q - x * baseline_emissions p t0 q)) /\
    (non_increasing_after_2100 p = true -> 2100 < year p (Nat.pred t0) -> regional_emissions v t0 q - x * baseline_emissions p t0 q <= regional_emissions v (Nat.pred t0) q) /\
    (non_increasing_after_2100 p = true -> (S t0 <= tf p)%nat -> 2100 < year p t0 -> regional_emissions v (S t0) q <= regional_emissions v t0 q - x * baseline_emissions p t0 q).
  Lemma near_emissions q : In q (regions p) -> (1 <= t0)%nat ->
    (forall l, regional_min_level p = Some l -> l <= regional_emissions v t0 q) /\
    (forall i, inertia_regional p = Some i -> dt p * i * baseline_emissions p 0 q <= regional_emissions v t0 q - regional_emissions v (Nat.pred t0) q) /\
    (forall i, inertia_regional p = Some i -> (S t0 <= tf p)%nat -> dt p * i * baseline_emissions p 0 q <= regional_emissions v (S t0) q - regional_emissions v t0 q) /\
    (non_increasing_after_2100 p = true -> 2100 < year p (Nat.pred t0) -> regional_emissions v t0 q <= regional_emissions v (Nat.pred t0) q) /\
    (non_increasing_after_2100 p = true -> (S t0 <= tf p)%nat -> 2100 < year p t0 -> regional_emissions v (S t0) q <= regional_emissions v t0 q).
  Proof.
    intros Hq H1. assert (P0 : S (Nat.pred t0) = t0) by lia. unfold regional_emissions.
    split; [intros l E; apply (q_min_r p v F t0 q l); auto; lia|].
    split; [intros i E; pose proof (q_inertia_r p v F (Nat.pred t0) q i ltac:(lia) Hq E) as Q; rewrite P0 in Q; lra|].
    split; [intros i E L; pose proof (q_inertia_r p v F t0 q i L Hq E) as Q; lra|].
    split; [intros E L; pose proof (q_non_incr p v F (Nat.pred t0) q ltac:(lia) Hq E L) as Q; rewrite P0 in Q; lra|].
    intros E L L2. pose proof (q_non_incr p v F t0 q L Hq E L2) as Q; lra.
  Qed.
  Lemma fits_more q c : In q (regions p) -> can_abate_more p v t0 q -> 0 <= c -> 0 <= baseline_emissions p t0 q -> soon (fun d => fits q (c * d)).
  Proof.
    intros Hq (A2 & A3 & A4 & A5 & A6) Hc Hbe. unfold fits. assert (HB : 0 < MAC_beta p) by apply NR.
    assert (M0 : model_step p t0) by (unfold model_step; lia). destruct (q_bounds_r p v F t0 q M0 Hq) as ((A1 & _) & _). fold (ab t0 q) in A1.
    assert (LIN' : forall k A, k < A -> soon (fun d => k + (c * baseline_emissions p t0 q) * d < A)) by (intros; apply soon_lin; auto).
    assert (P0 : S (Nat.pred t0) = t0) by lia. assert (Hcb : forall d, 0 <= d -> 0 <= c * d * baseline_emissions p t0 q) by (intros; apply Rmult_le_pos; [apply Rmult_le_pos|]; auto).
    destruct (near_emissions q Hq ltac:(lia)) as (N1 & N2 & N3 & N4 & N5).
    apply soon_and; [|apply soon_and; [|apply soon_and; [|apply soon_and; [|apply soon_and; [|apply soon_and]]]]].
    - eapply soon_imp; [apply (soon_lin (ab t0 q) c (5/2) A2)|]. intros d D X. assert (0 <= c * d) by (apply Rmult_le_pos; auto). lra.
    - unfold carbonprice in A3. rewrite (q_carbonprice p v F t0 q M0 Hq) in A3. fold (learning_factor v t0) (ab t0 q) in A3.
      rewrite pypow_apow in A3 by auto. set (k := learning_factor v t0 * MAC_scaling p q * MAC_gamma p) in *.
      destruct (Req_dec (ab t0 q) 0) as [Z|Z].
      + rewrite Z in A3 |- *. rewrite apow_0 in A3 by lra. destruct (Rle_lt_dec k 0) as [K0|K0].
        * apply soon_true. intros d D. assert (0 <= c * d) by (apply Rmult_le_pos; auto). rewrite pypow_apow by lra. pose proof (apow_nonneg (0 + c * d) (MAC_beta p)). nra.
        * assert (E : 0 < 2 * MAC_gamma p / k) by (apply Rdiv_lt_0_compat; lra).
          eapply soon_imp; [apply (soon_lin 0 c (Rpower (2 * MAC_gamma p / k) (/ MAC_beta p))); apply exp_pos|]. intros d D X. assert (0 <= c * d) by (apply Rmult_le_pos; auto).
          rewrite pypow_apow by lra. pose proof (apow_small (MAC_beta p) _ HB E _ X) as Y.
          apply Rle_trans with (k * (2 * MAC_gamma p / k)); [apply Rmult_le_compat_l; lra|right; field; lra].
      + rewrite apow_pos in A3 by lra.
        eapply soon_imp; [apply (soon_cont (fun d => k * Rpower (ab t0 q + c * d) (MAC_beta p)) (2 * MAC_gamma p))|].
        * apply derivable_continuous_pt. apply derivable_pt_scal. apply (derivable_pt_comp (fun d => ab t0 q + c * d) (fun x => Rpower x (MAC_beta p))).
          -- reg.
          -- exists (MAC_beta p * Rpower (ab t0 q + c * 0) (MAC_beta p - 1)). apply derivable_pt_lim_power. lra.
        * rewrite Rmult_0_r, Rplus_0_r. exact A3.
        * intros d D X. assert (0 <= c * d) by (apply Rmult_le_pos; auto). rewrite pypow_pos by lra. lra.
    - apply soon_option. intros l E. specialize (A4 l E). eapply soon_imp; [apply (LIN' _ _ A4)|]. intros d D X. lra.
    - apply soon_option. intros i E. specialize (A5 i (Nat.pred t0) E ltac:(lia)). eapply soon_imp; [apply (LIN' _ _ A5)|]. intros d D X. lra.
    - apply soon_true. intros d D i E L. specialize (N3 i E L). specialize (Hcb d D). lra.
    - apply soon_true. intros d D E L. specialize (N4 E L). specialize (Hcb d D). lra.
    - apply soon_if; [apply Bool.bool_dec|]. intros L. apply soon_if; [apply le_dec|]. intros L1. apply soon_if; [apply Rlt_dec|]. intros L2.
      specialize (A6 L L1 L2). eapply soon_imp; [apply (LIN' _ _ A6)|]. intros d D X. lra.
  Qed.
  Lemma fits_less q c : In q (regions p) -> can_abate_less p v t0 q -> 0 <= c -> 0 <= baseline_emissions p t0 q -> 0 <= MAC_scaling p q -> 0 <= MAC_gamma p -> soon (fun d => fits q (- c * d)).
  Proof.
    intros Hq (A1 & A5 & A6) Hc Hbe HM HG. unfold fits. assert (HB : 0 < MAC_beta p) by apply NR.
    assert (M0 : model_step p t0) by (unfold model_step; lia). destruct (q_bounds_r p v F t0 q M0 Hq) as ((_ & A2) & A3 & _). fold (ab t0 q) in A2.
    assert (P0 : S (Nat.pred t0) = t0) by lia. assert (Hcb : forall d, 0 <= d -> 0 <= c * d * baseline_emissions p t0 q) by (intros; apply Rmult_le_pos; [apply Rmult_le_pos|]; auto).
    destruct (near_emissions q Hq ltac:(lia)) as (N1 & N2 & N3 & N4 & N5).
    assert (LF : 0 < learning_factor v t0) by (apply (learning_pos p v t0 F M0); destruct NR as (_ & _ & _ & _ & X); lra).
    assert (POS : soon (fun d => 0 <= ab t0 q + - c * d)) by (eapply soon_imp; [apply (soon_lin (- ab t0 q) c 0 ltac:(lra))|]; intros d D X; lra).
    apply soon_and; [|apply soon_and; [|apply soon_and; [|apply soon_and; [|apply soon_and; [|apply soon_and]]]]].
    - eapply soon_imp; [exact POS|]. intros d D X. assert (0 <= c * d) by (apply Rmult_le_pos; auto). lra.
    - eapply soon_imp; [exact POS|]. intros d D X. assert (0 <= c * d) by (apply Rmult_le_pos; auto).
      rewrite (q_carbonprice p v F t0 q M0 Hq) in A3. fold (learning_factor v t0) (ab t0 q) in A3. rewrite pypow_apow in A3 by lra. rewrite pypow_apow by lra.
      apply Rle_trans with (2 := proj2 A3). apply Rmult_le_compat_l; [|apply apow_le; lra]. repeat apply Rmult_le_pos; auto; lra.
    - apply soon_true. intros d D l E. specialize (N1 l E). specialize (Hcb d D). lra.
    - apply soon_true. intros d D i E. specialize (N2 i E). specialize (Hcb d D). lra.
    - apply soon_option. intros i E. apply soon_if; [apply le_dec|]. intros L. specialize (A5 i E L).
      eapply soon_imp; [apply (soon_lin (dt p * i * baseline_emissions p 0 q) (c * baseline_emissions p t0 q) _ A5)|]. intros d D X. lra.
    - apply soon_if; [apply Bool.bool_dec|]. intros L. apply soon_if; [apply Rlt_dec|]. intros L2.
      specialize (A6 (Nat.pred t0) L ltac:(lia) L2). eapply soon_imp; [apply (soon_lin (regional_emissions v t0 q) (c * baseline_emissions p t0 q) _ A6)|]. intros d D X. lra.
    - apply soon_true. intros d D E L L2. specialize (N5 E L L2). specialize (Hcb d D). lra.
  Qed.
  Notation w d := (sim p (shifted d) (cumulative_emissions v) (fun _ => 0)).
  Section Small.
    Variable d : R.
    Hypotheses (Fr : fits r (d / baseline_emissions p t0 r)) (Fs : fits s (- (d / baseline_emissions p t0 s))).
    Lemma change_cases t q : change d t q = 0 \/ (t = t0 /\ fits q (change d t0 q)).
    Proof.
      destruct (Nat.eq_dec t t0) as [->|N]; [|left; apply change_other; tauto].
      destruct (string_dec q r) as [E|N1]; [right; split; [reflexivity|]; rewrite E, change_r; exact Fr|].
      destruct (string_dec q s) as [E|N2]; [right; split; [reflexivity|]; rewrite E, change_s; exact Fs|].
      left. apply change_other. tauto.
    Qed.
    Lemma shifted_feasible : feasible p (w d).
    Proof.
      assert (MLE : forall t, (t <= tf p)%nat -> model_step p t) by (intros; unfold model_step; lia).
      apply r_feasible; auto.
      - intros t Ht. apply shifted_sum. exact Ht.
      - intros t q Ht Hq. destruct t as [|t]; [lia|]. cbn [shifted]. destruct (change_cases (S t) q) as [E|[E FT]].
        + rewrite E, Rplus_0_r. destruct (q_bounds_r p v F (S t) q ltac:(lia) Hq) as (B1 & B2 & _). split; [unfold relative_abatement; lra|].
          unfold learning_factor, relative_abatement. rewrite <- (q_carbonprice p v F (S t) q) by (auto; lia). apply B2.
        + rewrite E. destruct FT as (F1 & F2 & _). split; assumption.
      - intros t q l Ht Hq E. rewrite (s_em_change d t q Ht Hq). destruct (change_cases t q) as [C|[-> FT]].
        + rewrite C. pose proof (q_min_r p v F t q l Ht Hq E) as Q. unfold regional_emissions. lra.
        + apply FT. exact E.
      - intros t q i Ht Hq E. rewrite (s_em_change d (S t) q Ht Hq), (s_em_change d t q ltac:(lia) Hq).
        pose proof (q_inertia_r p v F t q i Ht Hq E) as Q. fold (regional_emissions v (S t) q) in Q. fold (regional_emissions v t q) in Q.
        destruct (change_cases (S t) q) as [C|[C FT]].
        + rewrite C. destruct (change_cases t q) as [C'|[-> FT]]; [rewrite C'; lra|].
          destruct FT as (_ & _ & _ & _ & I & _). specialize (I i E Ht). lra.
        + rewrite (change_other d t q) by lia. destruct FT as (_ & _ & _ & I & _). specialize (I i E). rewrite <- C in I. cbn [Nat.pred] in I. rewrite C in I |- *. lra.
      - intros t q Ht Hq E Y. rewrite (s_em_change d (S t) q Ht Hq), (s_em_change d t q ltac:(lia) Hq).
        pose proof (q_non_incr p v F t q Ht Hq E Y) as Q. fold (regional_emissions v (S t) q) in Q. fold (regional_emissions v t q) in Q.
        destruct (change_cases (S t) q) as [C|[C FT]].
        + rewrite C. destruct (change_cases t q) as [C'|[-> FT]]; [rewrite C'; lra|].
          destruct FT as (_ & _ & _ & _ & _ & _ & I). specialize (I E Ht Y). lra.
        + rewrite (change_other d t q) by lia. destruct FT as (_ & _ & _ & _ & _ & I & _). assert (P : Nat.pred t0 = t) by lia. rewrite P in I. specialize (I E Y). rewrite C. lra.
    Qed.
  End Small.
  (** What the shift costs. *)
  Definition cost_of (q : region) (x : R) : R :=
    mac_scale p v t0 q * (apow (ab t0 q + x) (MAC_beta p + 1) / (MAC_beta p + 1)) * baseline_emissions p t0 q.
  Lemma cost_v t q : model_step p t -> In q (regions p) -> area_under_MAC v t q = ac p (mac_scale p v t q) (ab t q) * baseline_emissions p t q.
  Proof.
    intros Ht Hq. destruct (C27_cost_curve_in_solution_pf p v t q F Ht Hq ltac:(apply NR)) as [_ ->]. f_equal. unfold baseline. rewrite (q_baseline p v F t q Ht Hq), UC. reflexivity.
  Qed.
  Lemma cost_w d t q : fits r (d / baseline_emissions p t0 r) -> fits s (- (d / baseline_emissions p t0 s)) -> (1 <= t <= tf p)%nat -> In q (regions p) ->
    mitigation_costs (w d) t q = if Nat.eqb t t0 then cost_of q (change d t0 q) else area_under_MAC v t q.
  Proof.
    intros Fr Fs Ht Hq. assert (M : model_step p t) by (unfold model_step; lia). assert (HB : 0 < MAC_beta p) by apply NR.
    unfold mitigation_costs. cbn [rval sim]. unfold s_M, s_unit, s_base. rewrite UC, (r_learn p v F t M).
    assert (A : 0 <= shifted d t q) by (destruct (q_bounds_r p _ (shifted_feasible d Fr Fs) t q M Hq) as (B & _); cbn [rval sim] in B; lra).
    rewrite pypow_apow by lra. destruct (Nat.eqb_spec t t0) as [->|N].
    - unfold cost_of, mac_scale. destruct t0 as [|u]; [exfalso; lia|]. cbn [shifted]. unfold Rdiv. ring.
    - rewrite (cost_v t q M Hq). unfold ac, mac_scale. destruct t as [|u]; [exfalso; lia|]. cbn [shifted]. rewrite change_other by tauto. rewrite Rplus_0_r. unfold Rdiv. ring.
  Qed.
  Lemma cost_deriv q c : In q (regions p) -> derivable_pt_lim (fun d => cost_of q (c * d)) 0 (carbonprice v t0 q * (baseline_emissions p t0 q * c)).
  Proof.
    intros Hq. assert (HB : 0 < MAC_beta p) by apply NR. assert (M0 : model_step p t0) by (unfold model_step; lia).
    destruct (q_bounds_r p v F t0 q M0 Hq) as ((A & _) & _). fold (ab t0 q) in A.
    destruct (C27_cost_curve_in_solution_pf p v t0 q F M0 Hq HB) as [-> _]. unfold cost_of, mac.
    set (k := mac_scale p v t0 q). set (be := baseline_emissions p t0 q).
    assert (D : derivable_pt_lim (comp (fun a => apow a (MAC_beta p + 1) / (MAC_beta p + 1)) (fun d => ab t0 q + c * d)) 0 (apow (ab t0 q) (MAC_beta p) * c)).
    { apply derivable_pt_lim_comp.
      - replace c with (0 + c * 1) at 1 by ring. apply derivable_pt_lim_plus; [apply derivable_pt_lim_const|].
        apply (derivable_pt_lim_scal id c 0 1), derivable_pt_lim_id.
      - rewrite Rmult_0_r, Rplus_0_r. apply apow_deriv; lra. }
    pose proof (derivable_pt_lim_scal _ (k * be) _ _ D) as D'. unfold mult_real_fct, comp in D'.
    eapply (derivable_pt_lim_ext _ _ _ _); [|replace (k * apow (ab t0 q) (MAC_beta p) * (be * c)) with (k * be * (apow (ab t0 q) (MAC_beta p) * c)) by ring; exact D'].
    intros d. cbn. ring.
  Qed.
End Exchange.
