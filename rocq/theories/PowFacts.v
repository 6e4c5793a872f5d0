(** Real powers. *)
From Coq Require Import Lra Lia.
From Coquelicot Require Import Coquelicot.
From Verif Require Import ModelFacts SoftFacts ModelSpec.

Lemma pypow_pos x y : 0 < x -> pypow x y = Rpower x y.
Proof. intros. unfold pypow. destruct (Rlt_dec 0 x); auto; lra. Qed.
Lemma pypow_pos_pos x y : 0 < x -> 0 < pypow x y.
Proof. intros. rewrite pypow_pos; auto. apply exp_pos. Qed.
Lemma pypow_apow a b : 0 <= a -> 0 < b -> pypow a b = apow a b.
Proof.
  intros Ha Hb. unfold pypow, apow. destruct (Rlt_dec 0 a); [reflexivity|].
  destruct (Req_EM_T a 0); [|lra]. destruct (Req_EM_T b 0); [lra|reflexivity].
Qed.
Lemma apow_pos a b : 0 < a -> apow a b = Rpower a b.
Proof. intros. unfold apow. destruct (Rlt_dec 0 a); [reflexivity|lra]. Qed.
Lemma apow_0 a b : a <= 0 -> apow a b = 0.
Proof. intros. unfold apow. destruct (Rlt_dec 0 a); [lra|reflexivity]. Qed.
Lemma apow_nonneg a b : 0 <= apow a b.
Proof. unfold apow. destruct (Rlt_dec 0 a); [left; apply exp_pos|lra]. Qed.
Lemma apow_eq0 a b : 0 <= a -> apow a b = 0 -> a = 0.
Proof.
  intros Ha. unfold apow. destruct (Rlt_dec 0 a); [|lra]. intros H.
  pose proof (exp_pos (b * ln a)). lra.
Qed.
Lemma Rpower_lt_base x y b : 0 < b -> 0 < x -> x < y -> Rpower x b < Rpower y b.
Proof. intros. unfold Rpower. apply exp_increasing. apply Rmult_lt_compat_l; auto. apply ln_increasing; auto. Qed.
Lemma Rpower_le_base x y b : 0 <= b -> 0 < x -> x <= y -> Rpower x b <= Rpower y b.
Proof. intros. apply Rle_Rpower_l; lra. Qed.
Lemma Rpower_anti_base x y b : b <= 0 -> 0 < x -> x <= y -> Rpower y b <= Rpower x b.
Proof.
  intros. replace b with (- - b) by lra. rewrite !(Rpower_Ropp _ (- b)).
  apply Rinv_le_contravar; [apply exp_pos|]. apply Rpower_le_base; lra.
Qed.
Lemma apow_lt x y b : 0 < b -> 0 <= x -> x < y -> apow x b < apow y b.
Proof.
  intros Hb Hx Hxy. rewrite (apow_pos y) by lra. destruct (Rle_lt_or_eq_dec 0 x Hx) as [H|<-].
  - rewrite apow_pos by auto. apply Rpower_lt_base; auto.
  - rewrite apow_0 by lra. apply exp_pos.
Qed.
Lemma apow_le x y b : 0 < b -> x <= y -> apow x b <= apow y b.
Proof.
  intros Hb [H| ->]; [|lra]. destruct (Rle_dec 0 x).
  - left. apply apow_lt; auto.
  - rewrite (apow_0 x) by lra. apply apow_nonneg.
Qed.
(** a^b < eps close to 0 *)
Lemma apow_small b eps : 0 < b -> 0 < eps -> forall h, h < Rpower eps (/ b) -> apow h b < eps.
Proof.
  intros Hb He h Hh. destruct (Rle_dec h 0).
  - rewrite apow_0; auto.
  - rewrite apow_pos by lra. apply Rlt_le_trans with (Rpower (Rpower eps (/ b)) b).
    + apply Rpower_lt_base; auto; lra.
    + rewrite Rpower_mult. rewrite Rinv_l by lra. rewrite Rpower_1; auto; lra.
Qed.
Lemma apow_S a b : 0 <= a -> apow a (b + 1) = a * apow a b.
Proof.
  intros Ha. destruct (Rle_lt_or_eq_dec 0 a Ha) as [H|<-].
  - rewrite !apow_pos by auto. rewrite Rpower_plus, Rpower_1; auto. lra.
  - rewrite !apow_0 by lra. lra.
Qed.
Lemma apow_deriv b x : 0 < b -> 0 <= x -> derivable_pt_lim (fun a => apow a (b + 1) / (b + 1)) x (apow x b).
Proof.
  intros Hb Hx. destruct (Rle_lt_or_eq_dec 0 x Hx) as [H|<-].
  - rewrite apow_pos by auto.
    assert (D : derivable_pt_lim (fun a => Rpower a (b + 1)) x ((b + 1) * Rpower x (b + 1 - 1)))
      by (apply derivable_pt_lim_power; auto).
    replace (b + 1 - 1) with b in D by lra.
    intros eps He. destruct (D ((b + 1) * eps)) as [d Hd]; [apply Rmult_lt_0_compat; lra|].
    assert (Hm : 0 < Rmin d x) by (apply Rmin_pos; auto; apply cond_pos).
    exists (mkposreal _ Hm). cbn [pos]. intros h Hh Hlt.
    assert (Hlt1 : Rabs h < d) by (eapply Rlt_le_trans; [exact Hlt|apply Rmin_l]).
    assert (Hlt2 : Rabs h < x) by (eapply Rlt_le_trans; [exact Hlt|apply Rmin_r]).
    specialize (Hd h Hh Hlt1).
    assert (0 < x + h) by (apply Rabs_def2 in Hlt2; lra).
    rewrite !apow_pos by auto.
    replace ((Rpower (x + h) (b + 1) / (b + 1) - Rpower x (b + 1) / (b + 1)) / h - Rpower x b)
      with (((Rpower (x + h) (b + 1) - Rpower x (b + 1)) / h - (b + 1) * Rpower x b) / (b + 1))
      by (field; split; auto; lra).
    unfold Rdiv at 1. rewrite Rabs_mult, (Rabs_right (/ (b + 1))).
    + apply Rmult_lt_reg_r with (b + 1); [lra|]. rewrite Rmult_assoc, Rinv_l, Rmult_1_r by lra.
      rewrite (Rmult_comm eps). exact Hd.
    + apply Rle_ge. left. apply Rinv_0_lt_compat. lra.
  - rewrite (apow_0 0) by lra. intros eps He.
    assert (Hd : 0 < Rpower eps (/ b)) by apply exp_pos.
    exists (mkposreal _ Hd). cbn [pos]. intros h Hh Hlt. rewrite Rplus_0_l.
    rewrite (apow_0 0) by lra. destruct (Rle_dec h 0).
    + rewrite apow_0 by auto. replace ((0 / (b + 1) - 0 / (b + 1)) / h - 0) with 0 by (field; split; auto; lra).
      rewrite Rabs_R0. auto.
    + assert (0 < h) by lra. rewrite Rabs_right in Hlt by lra.
      rewrite apow_S by lra.
      replace ((h * apow h b / (b + 1) - 0 / (b + 1)) / h - 0) with (apow h b / (b + 1)) by (field; split; auto; lra).
      pose proof (apow_nonneg h b). pose proof (apow_small b eps Hb He h Hlt).
      rewrite Rabs_right.
      * apply Rmult_lt_reg_r with (b + 1); [lra|]. unfold Rdiv. rewrite Rmult_assoc, Rinv_l by lra. nra.
      * apply Rle_ge. unfold Rdiv. apply Rmult_le_pos; auto. left. apply Rinv_0_lt_compat. lra.
Qed.
Lemma apow_continuous b x : 0 < b -> 0 <= x -> continuous (fun a => apow a b) x.
Proof.
  intros Hb Hx. destruct (Rle_lt_or_eq_dec 0 x Hx) as [H|<-].
  - assert (D : continuity_pt (fun a => Rpower a b) x).
    { apply derivable_continuous_pt. exists (b * Rpower x (b - 1)). apply derivable_pt_lim_power; auto. }
    apply continuity_pt_filterlim in D.
    apply continuous_ext_loc with (g := fun a => Rpower a b).
    + exists (mkposreal _ H). intros y Hy. apply Rabs_def2 in Hy. unfold minus, plus, opp in Hy; cbn in Hy.
      symmetry. apply apow_pos. lra.
    + exact D.
  - apply continuity_pt_filterlim. intros eps He.
    exists (Rpower eps (/ b)). split; [apply exp_pos|]. intros y [_ Hy]. cbn in *. unfold R_dist in *.
    rewrite (apow_0 0) by lra. rewrite Rminus_0_r in *. pose proof (apow_nonneg y b).
    rewrite Rabs_right by lra. apply apow_small; auto. pose proof (Rle_abs y). lra.
Qed.
Lemma apow_RInt b x : 0 < b -> 0 <= x -> is_RInt (fun a => apow a b) 0 x (apow x (b + 1) / (b + 1)).
Proof.
  intros Hb Hx.
  replace (apow x (b + 1) / (b + 1)) with (minus (apow x (b + 1) / (b + 1)) (apow 0 (b + 1) / (b + 1))).
  2:{ unfold minus, plus, opp; cbn. rewrite (apow_0 0) by lra. field. lra. }
  apply (is_RInt_derive (fun a => apow a (b + 1) / (b + 1)) (fun a => apow a b) 0 x);
    intros y; rewrite Rmin_left, Rmax_right by lra; intros Hy.
  - apply is_derive_Reals. apply apow_deriv; auto; lra.
  - apply apow_continuous; auto; lra.
Qed.
(** convexity from the tangent inequality *)
Lemma apow_tangent b x y : 0 < b -> 0 <= x -> 0 <= y ->
  apow x (b + 1) / (b + 1) + apow x b * (y - x) <= apow y (b + 1) / (b + 1).
Proof.
  intros Hb Hx Hy. set (F := fun a => apow a (b + 1) / (b + 1)).
  change (F x + apow x b * (y - x) <= F y).
  destruct (Rtotal_order x y) as [H|[->|H]].
  - destruct (MVT_cor2 F (fun a => apow a b) x y H) as [c [E Hc]].
    { intros c Hc. apply apow_deriv; auto; lra. }
    pose proof (apow_le x c b Hb ltac:(lra)). nra.
  - lra.
  - destruct (MVT_cor2 F (fun a => apow a b) y x H) as [c [E Hc]].
    { intros c Hc. apply apow_deriv; auto; lra. }
    pose proof (apow_le c x b Hb ltac:(lra)). nra.
Qed.
Lemma apow_convex b x y l : 0 < b -> 0 <= x -> 0 <= y -> 0 <= l <= 1 ->
  apow (l * x + (1 - l) * y) (b + 1) / (b + 1)
  <= l * (apow x (b + 1) / (b + 1)) + (1 - l) * (apow y (b + 1) / (b + 1)).
Proof.
  intros Hb Hx Hy Hl. set (z := l * x + (1 - l) * y).
  assert (0 <= z) by (unfold z; nra).
  pose proof (apow_tangent b z x Hb H Hx) as A. pose proof (apow_tangent b z y Hb H Hy) as B.
  assert (E : l * (x - z) + (1 - l) * (y - z) = 0) by (unfold z; ring).
  set (Fx := apow x (b + 1) / (b + 1)) in *. set (Fy := apow y (b + 1) / (b + 1)) in *.
  set (Fz := apow z (b + 1) / (b + 1)) in *. set (d := apow z b) in *.
  assert (l * (Fz + d * (x - z)) + (1 - l) * (Fz + d * (y - z)) <= l * Fx + (1 - l) * Fy) by nra.
  assert (l * (Fz + d * (x - z)) + (1 - l) * (Fz + d * (y - z)) = Fz + d * (l * (x - z) + (1 - l) * (y - z))) by ring.
  rewrite H1, E in H0. lra.
Qed.
