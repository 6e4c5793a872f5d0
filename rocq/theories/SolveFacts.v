(** The implicit capital equation has a solution (intermediate value theorem). *)
From Coq Require Import Reals Lra Lia.
From Verif Require Import SoftFacts PowFacts.
Set Bullet Behavior "Strict Subproofs".
Open Scope R_scope.

Section Solve.
  Variables (s m B al : R).
  Hypotheses (Hs : 1 <= s) (Ha : 0 <= al) (Ha1 : al < 1).
  Definition capf (x : R) : R := s * x - m - B * Rpower (smin 10 x) al.
  Lemma capf_cont : continuity capf.
  Proof.
    intros x. unfold capf. apply continuity_pt_minus.
    - apply continuity_pt_minus; [|apply continuity_pt_const; intros ? ?; reflexivity].
      apply continuity_pt_mult; [apply continuity_pt_const; intros ? ?; reflexivity|apply derivable_continuous_pt, derivable_pt_id].
    - apply continuity_pt_mult; [apply continuity_pt_const; intros ? ?; reflexivity|].
      apply (continuity_pt_comp (smin 10) (fun y => Rpower y al)); [apply smin_continuity; lra|].
      apply derivable_continuous_pt. exists (al * Rpower (smin 10 x) (al - 1)). apply derivable_pt_lim_power. apply smin_pos; lra.
  Qed.
  Lemma smin10_gap x : 0 < smin 10 x - Rmax x 0 <= 1.
  Proof.
    pose proof (smin_gap 10 ltac:(lra) x) as G. split; [lra|]. apply Rle_trans with (1 := proj2 G).
    assert (3 < PI) by (pose proof PI2_3_2; lra). unfold Rdiv. rewrite Rmult_1_l. apply Rle_trans with (/ 1); [|lra]. apply Rinv_le_contravar; lra.
  Qed.
  Lemma Rpower_le1 y : 0 < y <= 1 -> Rpower y al <= 1.
  Proof.
    intros H. unfold Rpower. rewrite <- exp_0. assert (ln y <= 0).
    { destruct H as [H [L|L]]; [left; rewrite <- ln_1; apply ln_increasing; auto|rewrite L, ln_1; lra]. }
    assert (al * ln y <= 0) by nra. destruct H1 as [H1|H1]; [left; apply exp_increasing; auto|rewrite H1; lra].
  Qed.
  Lemma low_neg : {x : R | x < 0 /\ capf x < 0}.
  Proof.
    exists (- (Rabs m + Rabs B + 1)). pose proof (Rabs_pos m). pose proof (Rabs_pos B). split; [lra|].
    set (x := - _). unfold capf.
    pose proof (smin10_gap x) as G. rewrite Rmax_right in G by (unfold x; lra).
    assert (P : 0 < Rpower (smin 10 x) al <= 1) by (split; [apply exp_pos|apply Rpower_le1; lra]).
    pose proof (Rle_abs (- m)) as M. rewrite Rabs_Ropp in M. pose proof (Rle_abs (- B)) as N. rewrite Rabs_Ropp in N.
    assert (s * x <= x) by (unfold x in *; nra).
    assert (- (B * Rpower (smin 10 x) al) <= Rabs B) by nra.
    unfold x in *. lra.
  Qed.
  Lemma high_pos : {x : R | 0 < x /\ 0 < capf x}.
  Proof.
    set (Q := 4 * Rabs B + 1). pose proof (Rabs_pos B). pose proof (Rabs_pos m).
    set (Z := Rpower Q (/ (1 - al))).
    assert (I : 1 <= / (1 - al)) by (rewrite <- Rinv_1; apply Rinv_le_contravar; lra).
    assert (HQ : 1 <= Q) by (unfold Q; lra).
    exists (Z + 2 * Rabs m + 2). set (x := Z + _ + _).
    assert (HZ : 0 < Z) by apply exp_pos.
    split; [unfold x; lra|].
    assert (X1 : 1 < x) by (unfold x; lra).
    unfold capf.
    pose proof (smin10_gap x) as G. rewrite Rmax_left in G by lra.
    assert (P0 : 0 < Rpower (smin 10 x) al) by apply exp_pos.
    assert (P1 : Rpower (smin 10 x) al <= 2 * Rpower x al).
    { apply Rle_trans with (Rpower (2 * x) al).
      - apply Rpower_le_base; lra.
      - rewrite <- Rpower_mult_distr by lra. apply Rmult_le_compat_r; [apply Rlt_le, exp_pos|].
        rewrite <- (Rpower_1 2) at 2 by lra. apply Rle_Rpower; lra. }
    assert (P2 : Q * Rpower x al < x).
    { assert (E : Q = Rpower Z (1 - al)).
      { unfold Z. rewrite Rpower_mult, Rinv_l by lra. rewrite Rpower_1; lra. }
      rewrite E. apply Rlt_le_trans with (Rpower x (1 - al) * Rpower x al).
      - apply Rmult_lt_compat_r; [apply exp_pos|]. apply Rpower_lt_base; unfold x; lra.
      - rewrite <- Rpower_plus. replace (1 - al + al) with 1 by ring. rewrite Rpower_1; lra. }
    assert (N : B * Rpower (smin 10 x) al <= Rabs B * (2 * Rpower x al)).
    { pose proof (Rle_abs B). apply Rle_trans with (Rabs B * Rpower (smin 10 x) al); [apply Rmult_le_compat_r; lra|apply Rmult_le_compat_l; lra]. }
    assert (P3 : 0 < Rpower x al) by apply exp_pos.
    assert (4 * (Rabs B * Rpower x al) < x) by (unfold Q in P2; nra).
    pose proof (Rle_abs m). assert (x <= s * x) by nra. unfold x in *. lra.
  Qed.
End Solve.

Lemma cap_solution s m B al : 1 <= s -> 0 <= al -> al < 1 -> {x : R | capf s m B al x = 0}.
Proof.
  intros H1 H2 H3. destruct (low_neg s m B al H1 H2) as [lo [L0 L1]]. destruct (high_pos s m B al H1 H2 H3) as [hi [P0 P1]].
  destruct (IVT (capf s m B al) lo hi (capf_cont s m B al) ltac:(lra) L1 P1) as [z [_ Z]]. exists z; exact Z.
Qed.
(** A solution x of s*x = m + B*smin(x)^al, as a total function. *)
Definition solve (s m B al : R) : R :=
  match Rle_dec 1 s, Rle_dec 0 al, Rlt_dec al 1 with
  | left h1, left h2, left h3 => proj1_sig (cap_solution s m B al h1 h2 h3)
  | _, _, _ => 0
  end.
Lemma solve_eq s m B al : 1 <= s -> 0 <= al -> al < 1 -> s * solve s m B al = m + B * Rpower (smin 10 (solve s m B al)) al.
Proof.
  intros H1 H2 H3. unfold solve. destruct (Rle_dec 1 s); [|lra]. destruct (Rle_dec 0 al); [|lra]. destruct (Rlt_dec al 1); [|lra].
  destruct (cap_solution s m B al r r0 r1) as [x E]. cbn [proj1_sig]. unfold capf in E. lra.
Qed.

(** ** uniqueness *)
Lemma smin_elastic sc x : 0 < sc -> 0 < x -> x * dsmin sc x < smin sc x.
Proof.
  intros Hs Hx. unfold dsmin, smin. set (a := 25 / sc). assert (Ha : 0 < a) by (apply Rdiv_lt_0_compat; lra).
  pose proof PI_RGT_0 as P. assert (N : 0 < 1 + a * x * (a * x)) by nra.
  rewrite Rmult_plus_distr_l. rewrite (Rmult_comm x (sw sc x)). apply Rplus_lt_compat_l.
  apply Rmult_lt_reg_r with (a * PI * (1 + a * x * (a * x))); [apply Rmult_lt_0_compat; [apply Rmult_lt_0_compat|]; assumption|].
  replace (x * (a * x / (PI * (1 + a * x * (a * x)))) * (a * PI * (1 + a * x * (a * x)))) with (a * x * (a * x)) by (field; lra).
  replace (1 / (a * PI) * (a * PI * (1 + a * x * (a * x)))) with (1 + a * x * (a * x)) by (field; lra). lra.
Qed.
(** smin(x)/x decreases. *)
Lemma smin_ratio sc x y : 0 < sc -> 0 < x -> x < y -> smin sc y / y < smin sc x / x.
Proof.
  intros Hs Hx H.
  destruct (MVT_cor2 (fun z => smin sc z / z) (fun z => (dsmin sc z * z - 1 * smin sc z) / (z * z)) x y H) as [c [E Hc]].
  { intros c Hc. apply (derivable_pt_lim_div (smin sc) id c (dsmin sc c) 1); [apply smin_deriv; auto|apply derivable_pt_lim_id|unfold id; lra]. }
  pose proof (smin_elastic sc c Hs ltac:(lra)) as Q.
  assert (0 < c * c) by nra.
  assert ((dsmin sc c * c - 1 * smin sc c) / (c * c) < 0).
  { unfold Rdiv. assert (0 < / (c * c)) by (apply Rinv_0_lt_compat; auto). nra. }
  nra.
Qed.
Lemma smin_pow_ratio sc al x y : 0 < sc -> 0 <= al -> al <= 1 -> 0 < x -> x < y ->
  Rpower (smin sc y) al / y <= Rpower (smin sc x) al / x.
Proof.
  intros Hs Ha H1 Hx H. pose proof (smin_ratio sc x y Hs Hx H) as Q.
  pose proof (smin_pos sc Hs x). pose proof (smin_pos sc Hs y).
  assert (E : forall z, 0 < z -> Rpower (smin sc z) al / z = Rpower (smin sc z / z) al * Rpower z (al - 1)).
  { intros z Hz. unfold Rdiv. rewrite <- Rpower_mult_distr; [|apply smin_pos; auto|apply Rinv_0_lt_compat; auto].
    rewrite Rmult_assoc. f_equal. rewrite <- (Rpower_1 (/ z)) at 1 by (apply Rinv_0_lt_compat; auto).
    unfold Rpower. rewrite ln_Rinv by auto. rewrite <- exp_plus. f_equal. ring. }
  rewrite !E by lra.
  apply Rmult_le_compat; try (apply Rlt_le, exp_pos).
  - apply Rpower_le_base; [auto|apply Rdiv_lt_0_compat; lra|lra].
  - apply Rpower_anti_base; lra.
Qed.
(** With m >= 0 (or B <= 0) the solution is unique; below it the left side is smaller, above it larger. *)
Lemma capf_sign_pos s m B al x z : 1 <= s -> 0 <= al -> al <= 1 -> 0 <= m -> 0 <= B -> 0 < m + B -> capf s m B al z = 0 ->
  (x < z -> capf s m B al x < 0) /\ (z < x -> 0 < capf s m B al x) /\ 0 < z.
Proof.
  intros Hs Ha H1 Hm HB HMB Ez. unfold capf in *.
  assert (PP : forall y, 0 < Rpower (smin 10 y) al) by (intros; apply exp_pos).
  assert (POS : forall y, 0 < m + B * Rpower (smin 10 y) al).
  { intros y. specialize (PP y). destruct (Req_dec B 0) as [->|]; [lra|]. assert (0 < B * Rpower (smin 10 y) al) by (apply Rmult_lt_0_compat; lra). lra. }
  assert (Hz : 0 < z) by (specialize (POS z); nra).
  assert (MON : forall y1 y2, 0 < y1 -> y1 < y2 -> (s * y1 - m - B * Rpower (smin 10 y1) al) / y1 < (s * y2 - m - B * Rpower (smin 10 y2) al) / y2).
  { intros y1 y2 Y1 Y2. pose proof (smin_pow_ratio 10 al y1 y2 ltac:(lra) Ha H1 Y1 Y2) as Q.
    assert (I : / y2 < / y1) by (apply Rinv_lt_contravar; nra).
    replace ((s * y1 - m - B * Rpower (smin 10 y1) al) / y1) with (s - m * / y1 - B * (Rpower (smin 10 y1) al / y1)) by (field; lra).
    replace ((s * y2 - m - B * Rpower (smin 10 y2) al) / y2) with (s - m * / y2 - B * (Rpower (smin 10 y2) al / y2)) by (field; lra).
    destruct (Req_dec m 0) as [->|Hm0].
    - (* then B > 0: strictness from the power ratio *)
      assert (Q' : Rpower (smin 10 y2) al / y2 < Rpower (smin 10 y1) al / y1).
      { destruct Q as [Q|Q]; auto. exfalso.
        pose proof (smin_pow_ratio 10 al y1 ((y1 + y2) / 2) ltac:(lra) Ha H1 Y1 ltac:(lra)).
        assert (ST : forall u w, 0 < u -> u < w -> Rpower (smin 10 w) al / w < Rpower (smin 10 u) al / u).
        { clear - Ha H1. intros u w Hu Hw.
          destruct (Rle_lt_or_eq_dec al 1 H1) as [L|L].
          - pose proof (smin_ratio 10 u w ltac:(lra) Hu Hw) as Q.
            assert (E : forall z, 0 < z -> Rpower (smin 10 z) al / z = Rpower (smin 10 z / z) al * Rpower z (al - 1)).
            { intros z Hz. unfold Rdiv. rewrite <- Rpower_mult_distr; [|apply smin_pos; lra|apply Rinv_0_lt_compat; auto].
              rewrite Rmult_assoc. f_equal. rewrite <- (Rpower_1 (/ z)) at 1 by (apply Rinv_0_lt_compat; auto).
              unfold Rpower. rewrite ln_Rinv by auto. rewrite <- exp_plus. f_equal. ring. }
            rewrite !E by lra.
            apply Rle_lt_trans with (Rpower (smin 10 u / u) al * Rpower w (al - 1)).
            + apply Rmult_le_compat_r; [apply Rlt_le, exp_pos|]. apply Rpower_le_base; [auto|apply Rdiv_lt_0_compat; [apply smin_pos|]; lra|lra].
            + apply Rmult_lt_compat_l; [apply exp_pos|]. unfold Rpower. apply exp_increasing.
              assert (ln u < ln w) by (apply ln_increasing; auto). nra.
          - subst al. rewrite !Rpower_1 by (apply smin_pos; lra). apply smin_ratio; lra. }
        specialize (ST y1 y2 Y1 Y2). lra. }
      assert (B * (Rpower (smin 10 y2) al / y2) < B * (Rpower (smin 10 y1) al / y1)) by (apply Rmult_lt_compat_l; lra). lra.
    - assert (m * / y2 < m * / y1) by (apply Rmult_lt_compat_l; lra).
      assert (B * (Rpower (smin 10 y2) al / y2) <= B * (Rpower (smin 10 y1) al / y1)) by (apply Rmult_le_compat_l; lra). lra. }
  split; [|split; auto].
  - intros L. destruct (Rle_lt_dec x 0) as [X|X].
    + specialize (POS x). nra.
    + specialize (MON x z X L). rewrite Ez in MON. unfold Rdiv in MON. rewrite Rmult_0_l in MON.
      assert (0 < / x) by (apply Rinv_0_lt_compat; auto). nra.
  - intros L. specialize (MON z x Hz L). rewrite Ez in MON. unfold Rdiv in MON. rewrite Rmult_0_l in MON.
    assert (0 < / x) by (apply Rinv_0_lt_compat; lra). nra.
Qed.
Lemma capf_sign_neg s m B al x z : 1 <= s -> 0 <= al -> B <= 0 -> capf s m B al z = 0 ->
  (x < z -> capf s m B al x < 0) /\ (z < x -> 0 < capf s m B al x).
Proof.
  intros Hs Ha HB Ez. unfold capf in *.
  assert (M : forall y1 y2, y1 < y2 -> s * y1 - m - B * Rpower (smin 10 y1) al < s * y2 - m - B * Rpower (smin 10 y2) al).
  { intros y1 y2 L. assert (Rpower (smin 10 y1) al <= Rpower (smin 10 y2) al).
    { apply Rpower_le_base; [auto|apply smin_pos; lra|left; apply smin_incr; lra]. }
    nra. }
  split; intros L; [specialize (M x z L)|specialize (M z x L)]; lra.
Qed.
Lemma cap_unique s m B al x z : 1 <= s -> 0 <= al -> al <= 1 -> (0 <= m \/ B <= 0) ->
  capf s m B al x = 0 -> capf s m B al z = 0 -> x = z.
Proof.
  intros Hs Ha H1 C Ex Ez. destruct (Rle_lt_dec B 0) as [HB|HB].
  - destruct (capf_sign_neg s m B al x z Hs Ha HB Ez) as [A1 A2].
    destruct (Rtotal_order x z) as [L|[L|L]]; auto; [specialize (A1 L)|specialize (A2 L)]; lra.
  - destruct C as [C|C]; [|lra].
    destruct (capf_sign_pos s m B al x z Hs Ha H1 C ltac:(lra) ltac:(lra) Ez) as (A1 & A2 & _).
    destruct (Rtotal_order x z) as [L|[L|L]]; auto; [specialize (A1 L)|specialize (A2 L)]; lra.
Qed.
