(** C67: quantities that stay bounded over a set of feasible plans. *)
From Coq Require Import Lra Lia.
From Coquelicot Require Import Coquelicot.
From Verif Require Import ModelFacts SoftFacts ModelSpec PowFacts Equations Equations2 ClimateSpec ClimateLemmas Build VarFacts EconLemmas BuildFacts BuildLemmas DefinedFacts SolveFacts Compact.
Open Scope R_scope.
Set Bullet Behavior "Strict Subproofs".

(** The part of the smooth minimum below zero vanishes quadratically: a positive value bounds its argument below. *)
Lemma smin_tail d : 0 < d -> exists X, forall x, d <= smin 1 x -> X <= x.
Proof.
  intros D. exists (- (1 + / d)). intros x H. destruct (Rle_dec (- (1 + / d)) x) as [L|L]; [exact L|exfalso].
  assert (ID : 0 < / d) by (apply Rinv_0_lt_compat; exact D).
  assert (XN : x < 0) by lra. rewrite (smin_neg_arg 1 Rlt_0_1 x XN) in H.
  replace (25 / 1) with 25 in H by field. set (y := - x) in *. assert (Y : 1 + / d < y) by (unfold y; lra).
  set (w := / (25 * y)) in *. assert (W : 0 < w) by (apply Rinv_0_lt_compat; lra).
  pose proof (atan_gt_frac w W) as A. assert (E : 25 * y * w = 1) by (unfold w; field; lra).
  assert (B : 1 / (1 + w * w) < 25 * y * atan w).
  { replace (1 / (1 + w * w)) with (25 * y * (w / (1 + w * w))) by (unfold Rdiv; rewrite <- Rmult_assoc, E; reflexivity).
    apply Rmult_lt_compat_l; [lra|exact A]. }
  assert (Q : 1 - 25 * y * atan w < w * w).
  { apply Rlt_le_trans with (1 - 1 / (1 + w * w)); [lra|]. assert (W2 : 0 < w * w) by (apply Rmult_lt_0_compat; exact W).
    replace (1 - 1 / (1 + w * w)) with (w * w / (1 + w * w)) by (field; lra).
    apply Rmult_le_reg_r with (1 + w * w); [lra|]. replace (w * w / (1 + w * w) * (1 + w * w)) with (w * w) by (field; lra). nra. }
  assert (P3 : 3 < PI) by (pose proof PI_4; pose proof PI2_3_2; lra).
  assert (S : (1 - 25 * y * atan w) / (25 * PI) < w * w).
  { apply Rmult_lt_reg_r with (25 * PI); [lra|]. replace ((1 - 25 * y * atan w) / (25 * PI) * (25 * PI)) with (1 - 25 * y * atan w) by (field; lra).
    assert (W2 : 0 < w * w) by (apply Rmult_lt_0_compat; exact W). nra. }
  assert (WD : w < d).
  { unfold w. rewrite <- (Rinv_inv d). apply Rinv_lt_contravar; [apply Rmult_lt_0_compat; lra|lra]. }
  assert (W1 : w < 1) by (unfold w; rewrite <- Rinv_1; apply Rinv_lt_contravar; lra).
  nra.
Qed.
(** Powers below 1 grow slower than half of their base. *)
Lemma young A al : 0 <= A -> 0 <= al < 1 -> exists B, 0 <= B /\ forall x, 0 < x -> A * Rpower x al <= x / 2 + B.
Proof.
  intros HA [A0 A1]. destruct (Req_dec A 0) as [->|N].
  { exists 0. split; [lra|]. intros x X. rewrite Rmult_0_l. lra. }
  assert (AP : 0 < 2 * A) by lra. set (X0 := Rpower (2 * A) (/ (1 - al))). assert (P0 : 0 < X0) by apply exp_pos.
  exists (A * Rpower X0 al). split; [apply Rmult_le_pos; [lra|apply Rlt_le, exp_pos]|]. intros x X.
  destruct (Rle_dec x X0) as [L|L].
  - apply Rle_trans with (A * Rpower X0 al); [|lra]. apply Rmult_le_compat_l; [lra|]. apply Rpower_le_base; auto.
  - assert (G : A * Rpower x al <= x / 2).
    { replace (Rpower x al) with (x * Rpower x (al - 1)) by (rewrite <- (Rpower_1 x X) at 1; rewrite <- Rpower_plus; f_equal; lra).
      assert (H : Rpower x (al - 1) <= Rpower X0 (al - 1)) by (apply Rpower_anti_base; lra).
      assert (H2 : Rpower X0 (al - 1) = / (2 * A)).
      { unfold X0. rewrite Rpower_mult. replace (/ (1 - al) * (al - 1)) with (- (1)) by (field; lra). rewrite Rpower_Ropp, Rpower_1; auto. }
      rewrite H2 in H. apply Rle_trans with (A * (x * / (2 * A))).
      - apply Rmult_le_compat_l; [lra|]. apply Rmult_le_compat_l; lra.
      - right. field. lra. }
    pose proof (exp_pos (al * ln X0)). assert (0 < A * Rpower X0 al) by (apply Rmult_lt_0_compat; [lra|exact H]). lra.
Qed.

Section Bounds.
  Variable S : point -> Prop.
  Definition up (f : point -> R) := exists M, forall v, S v -> f v <= M.
  Definition lo (f : point -> R) := exists M, forall v, S v -> M <= f v.
  Definition bd (f : point -> R) := exists M, forall v, S v -> Rabs (f v) <= M.
  Lemma bd_up f : bd f -> up f.
  Proof. intros [M H]. exists M. intros v V. specialize (H v V). apply Rcomplements.Rabs_le_between in H. lra. Qed.
  Lemma bd_lo f : bd f -> lo f.
  Proof. intros [M H]. exists (- M). intros v V. specialize (H v V). apply Rcomplements.Rabs_le_between in H. lra. Qed.
  Lemma up_lo_bd f : up f -> lo f -> bd f.
  Proof.
    intros [A HA] [B HB]. exists (Rmax A (- B)). intros v V. specialize (HA v V). specialize (HB v V).
    pose proof (Rmax_l A (- B)). pose proof (Rmax_r A (- B)). apply Rabs_le. lra.
  Qed.
  Lemma up_le f g : (forall v, S v -> f v <= g v) -> up g -> up f.
  Proof. intros H [M U]. exists M. intros v V. eapply Rle_trans; [apply H, V|apply U, V]. Qed.
  Lemma lo_ge f g : (forall v, S v -> g v <= f v) -> lo g -> lo f.
  Proof. intros H [M U]. exists M. intros v V. eapply Rle_trans; [apply U, V|apply H, V]. Qed.
  Lemma bd_ext f g : (forall v, S v -> f v = g v) -> bd g -> bd f.
  Proof. intros H [M U]. exists M. intros v V. rewrite (H v V). apply U, V. Qed.
  Lemma bd_c c : bd (fun _ => c).
  Proof. exists (Rabs c). intros v _. lra. Qed.
  Lemma up_plus f g : up f -> up g -> up (fun v => f v + g v).
  Proof. intros [A HA] [B HB]. exists (A + B). intros v V. specialize (HA v V). specialize (HB v V). lra. Qed.
  Lemma lo_plus f g : lo f -> lo g -> lo (fun v => f v + g v).
  Proof. intros [A HA] [B HB]. exists (A + B). intros v V. specialize (HA v V). specialize (HB v V). lra. Qed.
  Lemma up_opp f : lo f -> up (fun v => - f v).
  Proof. intros [A HA]. exists (- A). intros v V. specialize (HA v V). lra. Qed.
  Lemma lo_opp f : up f -> lo (fun v => - f v).
  Proof. intros [A HA]. exists (- A). intros v V. specialize (HA v V). lra. Qed.
  Lemma up_scal c f : 0 <= c -> up f -> up (fun v => c * f v).
  Proof. intros C [A HA]. exists (c * A). intros v V. apply Rmult_le_compat_l; auto. Qed.
  Lemma lo_scal c f : 0 <= c -> lo f -> lo (fun v => c * f v).
  Proof. intros C [A HA]. exists (c * A). intros v V. apply Rmult_le_compat_l; auto. Qed.
  Lemma bd_plus f g : bd f -> bd g -> bd (fun v => f v + g v).
  Proof. intros F G. apply up_lo_bd; [apply up_plus; apply bd_up|apply lo_plus; apply bd_lo]; auto. Qed.
  Lemma bd_opp f : bd f -> bd (fun v => - f v).
  Proof. intros F. apply up_lo_bd; [apply up_opp, bd_lo|apply lo_opp, bd_up]; auto. Qed.
  Lemma bd_minus f g : bd f -> bd g -> bd (fun v => f v - g v).
  Proof. intros F G. apply (bd_plus f (fun v => - g v) F), bd_opp, G. Qed.
  Lemma bd_mult f g : bd f -> bd g -> bd (fun v => f v * g v).
  Proof. intros [A HA] [B HB]. exists (A * B). intros v V. rewrite Rabs_mult. apply Rmult_le_compat; auto using Rabs_pos. Qed.
  Lemma up_sum (f : region -> point -> R) l : (forall r, In r l -> up (f r)) -> up (fun v => Rsum (fun r => f r v) l).
  Proof.
    induction l as [|r l IH]; intros H.
    - exists 0. intros v _. rewrite Rsum_nil. lra.
    - destruct (up_plus _ _ (H r (or_introl eq_refl)) (IH (fun s I => H s (or_intror I)))) as [M U]. exists M. intros v V. rewrite Rsum_cons. apply U, V.
  Qed.
  Lemma lo_sum (f : region -> point -> R) l : (forall r, In r l -> lo (f r)) -> lo (fun v => Rsum (fun r => f r v) l).
  Proof.
    induction l as [|r l IH]; intros H.
    - exists 0. intros v _. rewrite Rsum_nil. lra.
    - destruct (lo_plus _ _ (H r (or_introl eq_refl)) (IH (fun s I => H s (or_intror I)))) as [M U]. exists M. intros v V. rewrite Rsum_cons. apply U, V.
  Qed.
  Lemma bd_sum (f : region -> point -> R) l : (forall r, In r l -> bd (f r)) -> bd (fun v => Rsum (fun r => f r v) l).
  Proof. intros H. apply up_lo_bd; [apply up_sum; intros; apply bd_up|apply lo_sum; intros; apply bd_lo]; auto. Qed.
  (** parts of a sum *)
  Lemma part_up (f : region -> point -> R) l : (forall r, In r l -> lo (f r)) -> up (fun v => Rsum (fun r => f r v) l) -> forall r, In r l -> up (f r).
  Proof.
    induction l as [|s l IH]; intros L U r R; [destruct R|].
    assert (U1 : up (fun v => f s v + Rsum (fun r => f r v) l)) by (apply (up_le _ (fun v => Rsum (fun r => f r v) (s :: l))); [intros v _; rewrite Rsum_cons; lra|exact U]).
    assert (LS : lo (fun v => Rsum (fun r => f r v) l)) by (apply lo_sum; intros x X; apply L; right; exact X).
    destruct R as [->|R].
    - apply (up_le _ (fun v => f r v + Rsum (fun r => f r v) l + - Rsum (fun r => f r v) l)); [intros; lra|]. apply up_plus; [exact U1|apply up_opp, LS].
    - apply IH; [intros x X; apply L; right; exact X| |exact R].
      apply (up_le _ (fun v => f s v + Rsum (fun r => f r v) l + - f s v)); [intros; lra|]. apply up_plus; [exact U1|apply up_opp, L; left; reflexivity].
  Qed.
  Lemma part_lo (f : region -> point -> R) l : (forall r, In r l -> up (f r)) -> lo (fun v => Rsum (fun r => f r v) l) -> forall r, In r l -> lo (f r).
  Proof.
    intros U L r R. apply (lo_ge _ (fun v => - - f r v)); [intros; lra|]. apply lo_opp.
    apply (part_up (fun r v => - f r v) l); [intros x X; apply lo_opp, U, X| |exact R].
    apply (up_le _ (fun v => - Rsum (fun r => f r v) l)); [|apply up_opp, L]. intros v _. right.
    rewrite (Rsum_ext (fun r => - f r v) (fun r => (-1) * f r v)) by (intros; lra). rewrite Rsum_scal. lra.
  Qed.
  (** terms of a weighted running total *)
  Lemma terms_up (N x : nat -> point -> R) (w : nat -> R) n : (forall t, 0 < w t) -> (forall v, S v -> N 0%nat v = 0) ->
    (forall t v, (t < n)%nat -> S v -> N (Datatypes.S t) v = N t v + w t * x (Datatypes.S t) v) ->
    (forall t, (0 < t <= n)%nat -> lo (x t)) -> up (N n) -> forall t, (0 < t <= n)%nat -> up (x t).
  Proof.
    intros W N0. induction n as [|n IH]; intros E L U t T; [lia|].
    assert (LN : forall m, (m <= Datatypes.S n)%nat -> lo (N m)).
    { induction m as [|m IM]; intros M; [exists 0; intros v V; rewrite N0 by exact V; lra|].
      apply (lo_ge _ (fun v => N m v + w m * x (Datatypes.S m) v)); [intros v V; rewrite (E m v) by (auto; lia); lra|].
      apply lo_plus; [apply IM; lia|]. apply lo_scal; [apply Rlt_le, W|]. apply L. lia. }
    assert (UT : up (fun v => N n v + w n * x (Datatypes.S n) v)) by (apply (up_le _ (N (Datatypes.S n))); [intros v V; rewrite (E n v) by (auto; lia); lra|exact U]).
    destruct (Nat.eq_dec t (Datatypes.S n)) as [->|NE].
    - apply (up_le _ (fun v => / w n * ((N n v + w n * x (Datatypes.S n) v) + - N n v))).
      + intros v V. right. field. apply Rgt_not_eq, W.
      + apply up_scal; [apply Rlt_le, Rinv_0_lt_compat, W|]. apply up_plus; [exact UT|apply up_opp, LN; lia].
    - apply IH; [intros s v Q; apply E; lia|intros s Q; apply L; lia| |lia].
      apply (up_le _ (fun v => (N n v + w n * x (Datatypes.S n) v) + - (w n * x (Datatypes.S n) v))); [intros; lra|].
      apply up_plus; [exact UT|]. apply up_opp, lo_scal; [apply Rlt_le, W|]. apply L. lia.
  Qed.
  Lemma terms_lo (N x : nat -> point -> R) (w : nat -> R) n : (forall t, 0 < w t) -> (forall v, S v -> N 0%nat v = 0) ->
    (forall t v, (t < n)%nat -> S v -> N (Datatypes.S t) v = N t v + w t * x (Datatypes.S t) v) ->
    (forall t, (0 < t <= n)%nat -> up (x t)) -> lo (N n) -> forall t, (0 < t <= n)%nat -> lo (x t).
  Proof.
    intros W N0 E U L t T. apply (lo_ge _ (fun v => - - x t v)); [intros; lra|]. apply lo_opp.
    apply (terms_up (fun t v => - N t v) (fun t v => - x t v) w n); auto.
    - intros v V. rewrite N0; auto. lra.
    - intros s v Q V. rewrite (E s v Q V). lra.
    - intros s Q. apply lo_opp, U, Q.
    - apply up_opp, L.
  Qed.
  Lemma zero_sum_bd (f : region -> point -> R) l : (forall r, In r l -> lo (f r)) -> (forall v, S v -> Rsum (fun r => f r v) l = 0) -> forall r, In r l -> bd (f r).
  Proof.
    intros L Z r R. apply up_lo_bd; [|apply L, R]. apply (part_up f l L); [|exact R]. exists 0. intros v V. rewrite (Z v V). lra.
  Qed.
End Bounds.
