(** The smooth switch/minimum/maximum on real numbers. *)
From Coq Require Import Lra Lia.
From Coquelicot Require Import Coquelicot.
From Verif Require Import ModelFacts.

Definition sw (s x : R) : R := atan (25 / s * x) / PI + 1/2.
Definition smin (s x : R) : R := sw s x * x + 1 / (25 / s * PI).
Definition smax (s x m : R) : R := - smin s (m - x) + m.

Lemma deno_soft_switch v e s : deno v (soft_switch e s) = sw s (deno v e).
Proof. reflexivity. Qed.
Lemma deno_soft_min v e s : deno v (soft_min e s) = smin s (deno v e).
Proof. reflexivity. Qed.
Lemma deno_soft_max v e m s : deno v (soft_max e m s) = smax s (deno v e) (deno v m).
Proof. reflexivity. Qed.

Lemma PI_pos : 0 < PI. Proof. exact PI_RGT_0. Qed.
Lemma PI_neq : PI <> 0. Proof. exact PI_neq0. Qed.
Global Hint Resolve PI_pos PI_neq : core.

Lemma defd_soft_switch v e s : defd v (soft_switch e s) <-> defd v e.
Proof. unfold soft_switch. cbn. split; [tauto|]. intros; repeat split; auto. Qed.
Lemma defd_soft_min v e s : 0 < s -> (defd v (soft_min e s) <-> defd v e).
Proof.
  intros Hs. unfold soft_min. cbn [defd]. rewrite defd_soft_switch. cbn [deno]. split; [tauto|].
  intros H; repeat split; auto. unfold scale_to_a.
  apply Rgt_not_eq. apply Rmult_gt_0_compat; [|exact PI_pos]. apply Rdiv_lt_0_compat; lra.
Qed.
Lemma defd_soft_max v e m s : 0 < s -> (defd v (soft_max e m s) <-> defd v e /\ defd v m).
Proof. intros Hs. unfold soft_max. cbn [defd]. rewrite defd_soft_min; auto. cbn. tauto. Qed.

(** ** arctan *)
Lemma atan_mvt w : 0 < w -> exists c, 0 < c < w /\ atan w = w / (1 + c * c).
Proof.
  intros Hw.
  destruct (MVT_cor2 atan (fun x => / (1 + x ^ 2)) 0 w Hw) as [c [E Hc]].
  { intros c Hc. apply derivable_pt_lim_atan. }
  exists c. split; auto. rewrite atan_0 in E. 
  replace (atan w) with (atan w - 0) by lra. rewrite E. unfold Rdiv. field. nra.
Qed.
Lemma atan_lt_id w : 0 < w -> atan w < w.
Proof.
  intros Hw. destruct (atan_mvt w Hw) as [c [Hc ->]].
  apply Rmult_lt_reg_r with (1 + c * c); [nra|]. unfold Rdiv. assert (0 < c * c) by (apply Rmult_lt_0_compat; lra).
  rewrite Rmult_assoc, Rinv_l; [nra|apply Rgt_not_eq; nra].
Qed.
Lemma atan_gt_frac w : 0 < w -> w / (1 + w * w) < atan w.
Proof.
  intros Hw. destruct (atan_mvt w Hw) as [c [Hc ->]].
  unfold Rdiv. apply Rmult_lt_compat_l; auto. apply Rinv_lt_contravar; nra.
Qed.
Lemma atan_pos w : 0 < w -> 0 < atan w.
Proof. intros. rewrite <- atan_0. apply atan_increasing; auto. Qed.

(** ** switch *)
Section Soft.
  Variable s : R.
  Hypothesis Hs : 0 < s.
  Let a := 25 / s.
  Lemma a_pos : 0 < a.
  Proof. unfold a. apply Rdiv_lt_0_compat; lra. Qed.

  Lemma sw_range x : 0 < sw s x < 1.
  Proof.
    unfold sw. destruct (atan_bound (25 / s * x)) as [A B].
    pose proof PI_pos.
    assert (- (1/2) < atan (25 / s * x) / PI < 1/2); [|lra].
    assert (E : atan (25 / s * x) / PI * PI = atan (25 / s * x)) by (field; auto).
    split; apply Rmult_lt_reg_r with PI; auto; rewrite E; lra.
  Qed.
  Lemma sw_incr x y : x < y -> sw s x < sw s y.
  Proof.
    intros H. unfold sw. apply Rplus_lt_compat_r. unfold Rdiv.
    apply Rmult_lt_compat_r; [apply Rinv_0_lt_compat; auto|]. apply atan_increasing.
    apply Rmult_lt_compat_l; auto. apply a_pos.
  Qed.
  Lemma sw_opp x : sw s (- x) = 1 - sw s x.
  Proof.
    unfold sw. replace (25 / s * - x) with (- (25 / s * x)) by lra. rewrite atan_opp. lra.
  Qed.
  Lemma sw_0 : sw s 0 = 1/2.
  Proof. unfold sw. rewrite Rmult_0_r, atan_0. lra. Qed.

  Lemma smin_reflect x : smin s x - smin s (- x) = x.
  Proof. unfold smin. rewrite sw_opp. lra. Qed.

  (** gap above max(x, 0) *)
  Lemma smin_pos_arg x : 0 < x -> smin s x = x + (1 - a * x * atan (/ (a * x))) / (a * PI).
  Proof.
    intros Hx. pose proof a_pos as Ha. unfold smin, sw. fold a.
    assert (0 < a * x) by (apply Rmult_lt_0_compat; auto).
    rewrite atan_inv by auto. field. split; auto; lra.
  Qed.
  Lemma smin_neg_arg x : x < 0 -> smin s x = (1 - a * (-x) * atan (/ (a * (-x)))) / (a * PI).
  Proof.
    intros Hx. pose proof (smin_reflect x) as E. rewrite smin_pos_arg with (x := - x) in E by lra. lra.
  Qed.
  Lemma gap_bounds u : 0 < u -> 0 < 1 - u * atan (/ u) < 1.
  Proof.
    intros Hu. assert (0 < / u) by (apply Rinv_0_lt_compat; auto).
    pose proof (atan_lt_id _ H). pose proof (atan_pos _ H).
    assert (u * atan (/ u) < u * / u) by (apply Rmult_lt_compat_l; auto).
    rewrite Rinv_r in H2 by lra. assert (0 < u * atan (/u)) by (apply Rmult_lt_0_compat; auto). lra.
  Qed.
  Lemma inv_aPI_pos : 0 < / (a * PI).
  Proof. apply Rinv_0_lt_compat. apply Rmult_lt_0_compat; auto. apply a_pos. Qed.
  Lemma smin_0 : smin s 0 = 1 / (a * PI).
  Proof. unfold smin. fold a. lra. Qed.
  Lemma smin_gap x : 0 < smin s x - Rmax x 0 <= 1 / (a * PI).
  Proof.
    pose proof a_pos as Ha. pose proof inv_aPI_pos as Hi.
    destruct (Rtotal_order x 0) as [H|[->|H]].
    - rewrite smin_neg_arg by auto. rewrite Rmax_right by lra.
      assert (0 < a * - x) by (apply Rmult_lt_0_compat; lra).
      destruct (gap_bounds _ H0). unfold Rdiv. split; [|nra].
      rewrite Rminus_0_r. apply Rmult_lt_0_compat; auto.
    - rewrite Rmax_left by lra. rewrite smin_0. lra.
    - rewrite smin_pos_arg by auto. rewrite Rmax_left by lra.
      assert (0 < a * x) by (apply Rmult_lt_0_compat; lra).
      destruct (gap_bounds _ H0). unfold Rdiv.
      replace (x + (1 - a * x * atan (/ (a * x))) * / (a * PI) - x)
        with ((1 - a * x * atan (/ (a * x))) * / (a * PI)) by lra.
      split; [|nra]. apply Rmult_lt_0_compat; auto.
  Qed.
  Lemma smin_pos x : 0 < smin s x.
  Proof. pose proof (smin_gap x). pose proof (Rmax_r x 0). lra. Qed.
  Lemma smin_gt x : x < smin s x.
  Proof. pose proof (smin_gap x). pose proof (Rmax_l x 0). lra. Qed.

  (** ** derivative and monotonicity *)
  Definition dsmin (x : R) : R := sw s x + a * x / (PI * (1 + (a * x) * (a * x))).
  Lemma smin_deriv x : derivable_pt_lim (smin s) x (dsmin x).
  Proof.
    apply is_derive_Reals. unfold smin, dsmin, sw. fold a.
    assert (0 < 1 + a * x * (a * x)) by nra.
    auto_derive; [exact I|]. field. split; auto. nra.
  Qed.
  Lemma dsmin_opp x : dsmin (- x) = 1 - dsmin x.
  Proof.
    unfold dsmin. rewrite sw_opp. replace (a * - x) with (- (a * x)) by lra.
    replace (- (a * x) * - (a * x)) with (a * x * (a * x)) by lra.
    unfold Rdiv. lra.
  Qed.
  Lemma dsmin_pos_range x : 0 < x -> 0 < dsmin x.
  Proof.
    intros Hx. unfold dsmin. pose proof (sw_range x). pose proof a_pos.
    assert (0 < a * x) by (apply Rmult_lt_0_compat; auto).
    assert (0 < a * x / (PI * (1 + a * x * (a * x)))); [|lra].
    apply Rdiv_lt_0_compat; auto. apply Rmult_lt_0_compat; auto. nra.
  Qed.
  Lemma dsmin_lt1 x : 0 < x -> dsmin x < 1.
  Proof.
    intros Hx. unfold dsmin, sw. fold a. pose proof a_pos.
    assert (Hu : 0 < a * x) by (apply Rmult_lt_0_compat; auto).
    set (u := a * x) in *.
    assert (Hw : 0 < / u) by (apply Rinv_0_lt_compat; auto).
    pose proof (atan_gt_frac _ Hw) as G. rewrite atan_inv in G by auto.
    assert (E : / u / (1 + / u * / u) = u / (1 + u * u)) by (field; split; nra).
    rewrite E in G.
    assert (F : (atan u + u / (1 + u * u)) / PI < 1/2).
    { apply Rmult_lt_reg_r with PI; auto. unfold Rdiv at 1. rewrite Rmult_assoc, Rinv_l; auto. lra. }
    replace (atan u / PI + 1/2 + u / (PI * (1 + u * u)))
      with ((atan u + u / (1 + u * u)) / PI + 1/2); [lra|].
    field. split; auto. nra.
  Qed.
  Lemma dsmin_pos x : 0 < dsmin x < 1.
  Proof.
    destruct (Rtotal_order x 0) as [H|[->|H]].
    - replace x with (- (- x)) by lra. rewrite dsmin_opp.
      pose proof (dsmin_pos_range (- x)). pose proof (dsmin_lt1 (- x)). lra.
    - unfold dsmin. rewrite sw_0. rewrite !Rmult_0_r. unfold Rdiv. lra.
    - split; [apply dsmin_pos_range|apply dsmin_lt1]; auto.
  Qed.
  Lemma smin_incr x y : x < y -> smin s x < smin s y.
  Proof.
    intros H. destruct (MVT_cor2 (smin s) dsmin x y H) as [c [E Hc]].
    { intros; apply smin_deriv. }
    pose proof (dsmin_pos c). nra.
  Qed.
  (** soft_min is also 1-Lipschitz *)
  Lemma smin_lip x y : x < y -> smin s y - smin s x < y - x.
  Proof.
    intros H. destruct (MVT_cor2 (smin s) dsmin x y H) as [c [E Hc]].
    { intros; apply smin_deriv. }
    pose proof (dsmin_pos c). nra.
  Qed.
  Lemma smin_le x y : x <= y -> smin s x <= smin s y.
  Proof. intros [H| ->]; [left; apply smin_incr; auto|lra]. Qed.
  Lemma smin_continuity : continuity (smin s).
  Proof. intros x. apply derivable_continuous_pt. exists (dsmin x). apply smin_deriv. Qed.

  Lemma smax_gap x m : 0 < Rmin x m - smax s x m <= 1 / (a * PI).
  Proof.
    unfold smax. pose proof (smin_gap (m - x)) as G.
    assert (Rmin x m = m - Rmax (m - x) 0).
    { unfold Rmin, Rmax. destruct (Rle_dec x m), (Rle_dec (m - x) 0); lra. }
    lra.
  Qed.
  Lemma smax_incr x y m : x < y -> smax s x m < smax s y m.
  Proof. intros. unfold smax. pose proof (smin_incr (m - y) (m - x)). lra. Qed.
End Soft.
