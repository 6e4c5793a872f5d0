(** Existence of simulated runs with the endogenous baseline: one-dimensional fixed point per step. *)
From Coq Require Import Lra Lia.
From Verif Require Import ModelFacts SoftFacts ModelSpec PowFacts Equations Equations2 Build VarFacts EconLemmas BuildFacts BuildLemmas DefinedFacts
  SolveFacts ClimateSpec ClimateLemmas WelfareSpec Simulate SimFacts ExistSpec.
Set Bullet Behavior "Strict Subproofs".

(** ** continuity of the capital solution in its coefficient *)
Lemma solve_zero s m B al : 1 <= s -> 0 <= al -> al < 1 -> capf s m B al (solve s m B al) = 0.
Proof. intros. unfold capf. rewrite solve_eq by auto. ring. Qed.
Lemma solve_mono s m m' B B' al : 1 <= s -> 0 <= al -> al < 1 -> 0 < m -> m <= m' -> 0 <= B -> B <= B' ->
  solve s m B al <= solve s m' B' al.
Proof.
  intros Hs Ha H1 Hm Hmm HB HBB. destruct (Rle_lt_dec (solve s m B al) (solve s m' B' al)) as [|L]; auto. exfalso.
  destruct (capf_sign_pos s m' B' al (solve s m B al) (solve s m' B' al)) as (_ & A & _); try lra. { apply solve_zero; auto. }
  specialize (A L). pose proof (solve_zero s m B al Hs Ha H1) as Z. unfold capf in *.
  assert (0 < Rpower (smin 10 (solve s m B al)) al) by apply exp_pos. nra.
Qed.
Lemma solve_super s m m' B B' al x : 1 <= s -> 0 <= al -> al < 1 -> 0 < m -> m <= m' -> 0 <= B -> B <= B' ->
  m' + B' * Rpower (smin 10 x) al <= s * x -> solve s m B al <= x.
Proof.
  intros Hs Ha H1 Hm Hmm HB HBB S. destruct (Rle_lt_dec (solve s m B al) x) as [|L]; auto. exfalso.
  destruct (capf_sign_pos s m B al x (solve s m B al)) as (A & _); try lra. { apply solve_zero; auto. }
  specialize (A L). unfold capf in *. assert (0 < Rpower (smin 10 x) al) by apply exp_pos. nra.
Qed.
Lemma solve_pos s m B al : 1 <= s -> 0 <= al -> al < 1 -> 0 < m -> 0 <= B -> 0 < solve s m B al.
Proof.
  intros Hs Ha H1 Hm HB. destruct (capf_sign_pos s m B al 0 (solve s m B al)) as (_ & _ & A); try lra. apply solve_zero; auto.
Qed.
Lemma solve_cont s m al B0 : 1 <= s -> 0 <= al -> al < 1 -> 0 < m ->
  continuity_pt (fun B => solve s m (Rmax 0 B) al) B0.
Proof.
  intros Hs Ha H1 Hm. set (z0 := solve s m (Rmax 0 B0) al).
  intros eps He. unfold D_x, no_cond, dist. cbn.
  assert (M0 : 0 <= Rmax 0 B0) by apply Rmax_l.
  destruct (capf_sign_pos s m (Rmax 0 B0) al (z0 - eps) z0) as (A1 & _); try lra. { apply solve_zero; auto. }
  destruct (capf_sign_pos s m (Rmax 0 B0) al (z0 + eps) z0) as (_ & A2 & _); try lra. { apply solve_zero; auto. }
  specialize (A1 ltac:(lra)). specialize (A2 ltac:(lra)).
  set (P1 := Rpower (smin 10 (z0 - eps)) al). set (P2 := Rpower (smin 10 (z0 + eps)) al).
  assert (HP1 : 0 < P1) by apply exp_pos. assert (HP2 : 0 < P2) by apply exp_pos.
  set (d := Rmin (- capf s m (Rmax 0 B0) al (z0 - eps) / P1) (capf s m (Rmax 0 B0) al (z0 + eps) / P2)).
  assert (Hd : 0 < d) by (unfold d; apply Rmin_pos; apply Rdiv_lt_0_compat; lra).
  exists d. split; [exact Hd|]. intros B [_ HB]. unfold R_dist in *.
  assert (MB : Rabs (Rmax 0 B - Rmax 0 B0) < d).
  { apply Rle_lt_trans with (2 := HB). unfold Rmax. destruct (Rle_dec 0 B), (Rle_dec 0 B0); unfold Rabs; repeat destruct Rcase_abs; lra. }
  apply Rabs_def2 in MB as [MB1 MB2].
  assert (N0 : 0 <= Rmax 0 B) by apply Rmax_l.
  assert (D1 : d * P1 <= - capf s m (Rmax 0 B0) al (z0 - eps)).
  { apply Rle_trans with (- capf s m (Rmax 0 B0) al (z0 - eps) / P1 * P1); [apply Rmult_le_compat_r; [lra|apply Rmin_l]|].
    right. field. lra. }
  assert (D2 : d * P2 <= capf s m (Rmax 0 B0) al (z0 + eps)).
  { apply Rle_trans with (capf s m (Rmax 0 B0) al (z0 + eps) / P2 * P2); [apply Rmult_le_compat_r; [lra|apply Rmin_r]|].
    right. field. lra. }
  assert (C1 : capf s m (Rmax 0 B) al (z0 - eps) < 0).
  { unfold capf in *. fold P1 in A1, D1 |- *. assert ((Rmax 0 B0 - Rmax 0 B) * P1 < d * P1) by (apply Rmult_lt_compat_r; lra). lra. }
  assert (C2 : 0 < capf s m (Rmax 0 B) al (z0 + eps)).
  { unfold capf in *. fold P2 in A2, D2 |- *. assert ((Rmax 0 B - Rmax 0 B0) * P2 < d * P2) by (apply Rmult_lt_compat_r; lra). lra. }
  set (z := solve s m (Rmax 0 B) al).
  destruct (capf_sign_pos s m (Rmax 0 B) al (z0 - eps) z) as (_ & E1 & _); try lra. { apply solve_zero; auto. }
  destruct (capf_sign_pos s m (Rmax 0 B) al (z0 + eps) z) as (E2 & _); try lra. { apply solve_zero; auto. }
  assert (z0 - eps < z).
  { destruct (Rtotal_order (z0 - eps) z) as [L|[L|L]]; auto; [|specialize (E1 L); lra].
    exfalso. pose proof (solve_zero s m (Rmax 0 B) al Hs Ha H1) as Z. fold z in Z. rewrite <- L in Z. lra. }
  assert (z < z0 + eps).
  { destruct (Rtotal_order z (z0 + eps)) as [L|[L|L]]; auto; [|specialize (E2 L); lra].
    exfalso. pose proof (solve_zero s m (Rmax 0 B) al Hs Ha H1) as Z. fold z in Z. rewrite L in Z. lra. }
  apply Rabs_def1; fold z z0; lra.
Qed.

(** ** the simulation at step t depends on the cumulative emissions up to t only *)
Section Ext.
  Variable p : pars.
  Variable a : nat -> region -> R.
  Definition agree (n : nat) (c c' : nat -> R) : Prop := forall s, (s <= n)%nat -> c s = c' s.
  Lemma agree_le n m c c' : (m <= n)%nat -> agree n c c' -> agree m c c'.
  Proof. intros L H s Hs. apply H. lia. Qed.
  Variables c c' : nat -> R.
  Lemma x_temp n : agree n c c' -> s_temp p c n = s_temp p c' n.
  Proof. intros H. unfold s_temp. rewrite (H n) by lia. reflexivity. Qed.
  Lemma x_slr_S n : agree n c c' -> s_th p c (S n) = s_th p c' (S n) /\ s_gs p c (S n) = s_gs p c' (S n) /\ s_gi p c (S n) = s_gi p c' (S n).
  Proof.
    induction n as [|n IH]; intros H.
    - cbn [s_th s_gs s_gi]. rewrite !(x_temp 0 H). auto.
    - destruct (IH (agree_le (S n) n _ _ ltac:(lia) H)) as (A & B & D).
      remember (S n) as k eqn:K. cbn [s_th s_gs s_gi]. rewrite A, B, D, (x_temp k H). auto.
  Qed.
  Lemma x_slr n : agree n c c' -> s_slr p c n = s_slr p c' n.
  Proof.
    intros H. unfold s_slr. destruct n as [|n]; [reflexivity|].
    destruct (x_slr_S n (agree_le (S n) n _ _ ltac:(lia) H)) as (-> & -> & ->). reflexivity.
  Qed.
  Lemma x_ds n r : agree n c c' -> s_ds p c (S n) r = s_ds p c' (S n) r.
  Proof.
    intros H. unfold s_ds, s_slr. destruct (x_slr_S n H) as (-> & -> & ->). reflexivity.
  Qed.
  Lemma x_dam n r : agree n c c' -> s_dam p c n r = s_dam p c' n r.
  Proof.
    intros H. unfold s_dam, s_dn, s_ds. rewrite (x_temp n H), (x_slr n H), (x_slr 0 (agree_le n 0 _ _ ltac:(lia) H)). reflexivity.
  Qed.
  Lemma x_keep n r : agree n c c' -> s_keep p c n r = s_keep p c' n r.
  Proof. intros H. unfold s_keep. rewrite (x_dam n r H). reflexivity. Qed.
  Lemma x_unit n r : agree n c c' -> s_unit p a c n r = s_unit p a c' n r.
  Proof. intros H. unfold s_unit, s_learn, s_lbd. rewrite (H n) by lia. reflexivity. Qed.
  Lemma x_K n r : agree n c c' -> s_K p a c n r = s_K p a c' n r.
  Proof.
    induction n as [|n IH]; intros H; [reflexivity|]. cbn [s_K].
    rewrite IH by (apply (agree_le (S n)); auto; lia). rewrite (x_keep (S n) r H), (x_unit (S n) r H). reflexivity.
  Qed.
  Lemma x_em n r : agree n c c' -> s_em p a c n r = s_em p a c' n r.
  Proof.
    intros H. destruct n as [|n]; [reflexivity|]. cbn [s_em]. unfold s_base, s_Yn, s_Y.
    rewrite (x_keep (S n) r H), (x_unit (S n) r H), (x_K (S n) r H). reflexivity.
  Qed.
  Lemma x_ge n : agree n c c' -> s_ge p a c n = s_ge p a c' n.
  Proof. intros H. unfold s_ge. apply Rsum_ext. intros r Hr. apply x_em; auto. Qed.
End Ext.

(** ** continuity of the pieces *)
Lemma cont_const k x : continuity_pt (fun _ => k) x.
Proof. apply continuity_pt_const. intros ? ?. reflexivity. Qed.
Lemma cont_id x : continuity_pt (fun y => y) x.
Proof. apply derivable_continuous_pt, derivable_pt_id. Qed.
Lemma cont_comp f g x : continuity_pt f x -> continuity_pt g (f x) -> continuity_pt (fun y => g (f y)) x.
Proof. intros A B. apply (continuity_pt_comp f g); auto. Qed.
Lemma cont_add f g x : continuity_pt f x -> continuity_pt g x -> continuity_pt (fun y => f y + g y) x.
Proof. intros A B. apply (continuity_pt_plus f g); auto. Qed.
Lemma cont_sub f g x : continuity_pt f x -> continuity_pt g x -> continuity_pt (fun y => f y - g y) x.
Proof. intros A B. apply (continuity_pt_minus f g); auto. Qed.
Lemma cont_opp f x : continuity_pt f x -> continuity_pt (fun y => - f y) x.
Proof. intros A. apply (continuity_pt_opp f); auto. Qed.
Lemma cont_mul f g x : continuity_pt f x -> continuity_pt g x -> continuity_pt (fun y => f y * g y) x.
Proof. intros A B. apply (continuity_pt_mult f g); auto. Qed.
Lemma cont_div f g x : continuity_pt f x -> continuity_pt g x -> g x <> 0 -> continuity_pt (fun y => f y / g y) x.
Proof. intros A B N. apply (continuity_pt_div f g); auto. Qed.
Lemma cont_exp f x : continuity_pt f x -> continuity_pt (fun y => exp (f y)) x.
Proof. intros A. apply (cont_comp f exp); auto. apply derivable_continuous_pt, derivable_pt_exp. Qed.
Lemma cont_smin sc f x : 0 < sc -> continuity_pt f x -> continuity_pt (fun y => smin sc (f y)) x.
Proof. intros H A. apply (cont_comp f (smin sc)); auto. apply smin_continuity; auto. Qed.
Lemma cont_power f b x : continuity_pt f x -> 0 < f x -> continuity_pt (fun y => Rpower (f y) b) x.
Proof.
  intros A H. apply (cont_comp f (fun z => Rpower z b)); auto. apply derivable_continuous_pt.
  exists (b * Rpower (f x) (b - 1)). apply derivable_pt_lim_power. auto.
Qed.
Lemma cont_ext f g x : (forall y, f y = g y) -> continuity_pt f x -> continuity_pt g x.
Proof.
  intros E A eps He. destruct (A eps He) as [d [Hd H]]. exists d. split; auto. intros y Hy. rewrite <- !E. auto.
Qed.
Lemma cont_sum (f : R -> region -> R) l x : (forall r, In r l -> continuity_pt (fun y => f y r) x) ->
  continuity_pt (fun y => Rsum (f y) l) x.
Proof.
  induction l as [|r l IH]; intros H.
  - apply (cont_ext (fun _ => 0)); [intros; reflexivity|apply cont_const].
  - apply (cont_ext (fun y => f y r + Rsum (f y) l)); [intros; reflexivity|]. apply cont_add; [apply H; left; auto|apply IH; intros; apply H; right; auto].
Qed.
Lemma cont_max f x : continuity_pt f x -> continuity_pt (fun y => Rmax 0 (f y)) x.
Proof.
  intros A. apply (cont_ext (fun y => (f y + Rabs (f y)) / 2)).
  - intros y. unfold Rmax, Rabs. destruct Rle_dec, Rcase_abs; lra.
  - apply cont_div; [|apply cont_const|lra]. apply cont_add; auto. apply (cont_comp f Rabs); auto. apply Rcontinuity_abs.
Qed.
Lemma cont_curve d r x : (str_contains "Linear" (d_form d r) = false -> str_contains "Quadratic" (d_form d r) = false -> 0 <= d_b2 d r) ->
  continuity_pt (damage_curve d r) x.
Proof.
  intros H. unfold damage_curve. destruct (str_contains "Linear" (d_form d r)).
  - apply cont_div; [apply cont_mul; [apply cont_const|apply cont_id]|apply cont_const|lra].
  - destruct (str_contains "Quadratic" (d_form d r)).
    + apply cont_div; [apply cont_mul; [apply cont_const|]|apply cont_const|lra].
      apply cont_add; apply cont_mul; try apply cont_const; [apply cont_id|].
      apply (cont_ext (fun y => y * y)); [intros; ring|]. apply cont_mul; apply cont_id.
    + specialize (H eq_refl eq_refl). apply cont_div; [apply cont_mul; [apply cont_const|]|apply cont_const|lra].
      apply cont_sub; [|apply cont_const]. apply cont_div; [apply cont_const| |].
      * apply cont_add; [apply cont_const|]. apply cont_mul; [apply cont_const|]. apply cont_exp.
        unfold smax. apply cont_add; [|apply cont_const]. apply cont_opp. apply cont_smin; [lra|].
        apply cont_sub; [apply cont_const|]. apply cont_mul; [apply cont_const|apply cont_id].
      * assert (0 <= d_b2 d r * exp (smax (1/10) (- d_b3 d r * x) 10)) by (apply Rmult_le_pos; [lra|apply Rlt_le, exp_pos]). lra.
Qed.

(** ** bounds along the simulated path *)
Section Bounds.
  Variable p : pars.
  Variable a : nat -> region -> R.
  Variables (kap Tmax : R) (Kb : nat -> region -> R) (Cb : nat -> R).
  Hypotheses (NR : numeric_ranges p) (SD : sound_data p) (U : usable_choices p) (UC : use_carbon_intensity p = true) (Al : 0 <= alpha p < 1).
  Hypothesis BE : forall t r, model_step p t -> In r (regions p) -> 0 <= baseline_emissions p t r.
  Hypothesis MS : forall r, In r (regions p) -> 0 <= MAC_scaling p r.
  Hypothesis MG : 0 <= MAC_gamma p.
  Hypothesis HA : forall t r, model_step p t -> In r (regions p) -> 0 <= a t r <= 1.
  Hypotheses (HT : 0 <= T0 p) (HC : 0 <= TCRE p) (HK : 1 <= kap).
  Hypothesis ENV : envelope p kap Kb Cb.
  Hypothesis HTm : forall t, model_step p t -> T0 p + TCRE p * Cb t <= Tmax.
  Hypothesis DT : dt p * (Tmax + 1) < 325.
  Hypothesis DMG : dmg_module p = COACCH -> ignore_damages p = false -> forall r x y, In r (regions p) ->
    T0 p <= x <= Tmax -> 0 <= y <= sea_level_ceiling p Tmax -> 1 - kap <= damages_at p r x y <= 1.

  Let sv := 2 - survival p.
  Let Yb t r := output_scale p t r * Rpower (smin 10 (Kb t r)) (alpha p).
  Let Eb t := match t with
              | O => total p (baseline_emissions p 0)
              | S _ => total p (fun r => baseline_carbon_intensity p t r * (kap * Yb t r)) end.
  Let inc (e1 e0 : R) := if cum_trapz p then dt p * (e1 + e0) / 2 else dt p * e1.

  Lemma dtpos : 0 < dt p. Proof. apply NR. Qed.
  Lemma sv1 : 1 <= sv.
  Proof. destruct NR as (Hdt & Hk & _). destruct (surv_range p Hdt Hk) as [_ SR]. unfold sv. lra. Qed.
  Lemma srpos : 0 <= sr p. Proof. apply NR. Qed.
  Lemma sigma_nn t r : model_step p t -> In r (regions p) -> 0 <= baseline_carbon_intensity p t r.
  Proof.
    intros Ht Hr. destruct SD as (_ & PD & _). destruct (PD r Hr) as [_ D]. destruct (D t Ht) as [_ G].
    unfold baseline_carbon_intensity, Rdiv. apply Rmult_le_pos; [apply BE; auto|apply Rlt_le, Rinv_0_lt_compat; auto].
  Qed.
  Lemma scale_eq t r : model_step p t -> In r (regions p) -> s_prod p t r = output_scale p t r /\ 0 < output_scale p t r.
  Proof.
    intros Ht Hr. destruct SD as (_ & PD & _). destruct (PD r Hr) as [_ D]. destruct (D t Ht) as [P _].
    unfold s_prod, output_scale. rewrite pypow_pos by auto. split; auto. apply Rmult_lt_0_compat; [|apply exp_pos].
    destruct NR as (Hdt & Hk & Hs & _). apply TFP_pos; auto.
  Qed.
  Lemma lot_pos t : 0 < s_lot p t.
  Proof. unfold s_lot. apply Rdiv_lt_0_compat; [lra|]. apply pow_lt. destruct NR as (_ & _ & _ & _ & L). lra. Qed.
  Lemma unit_nn cum t r : model_step p t -> In r (regions p) -> 0 <= s_unit p a cum t r.
  Proof.
    intros Ht Hr. unfold s_unit, s_learn, s_lbd. destruct NR as (_ & _ & _ & B & _).
    unfold Rdiv. apply Rmult_le_pos; [|apply Rlt_le, Rinv_0_lt_compat; lra].
    apply Rmult_le_pos; [apply Rmult_le_pos; [apply Rmult_le_pos|]|]; auto.
    - apply Rmult_le_pos; [apply Rlt_le, pypow_pos_pos, smin_pos; lra|apply Rlt_le, lot_pos].
    - rewrite pypow_apow; [apply apow_nonneg|apply HA; auto|lra].
  Qed.

  Lemma slr_range cum n : (n <= tf p)%nat -> (forall t, (t < n)%nat -> 0 <= cum t <= Cb t) ->
    0 <= s_th p cum n <= slr_thermal_expansion_init p + INR n * dt p * (15/10 * Tmax) / 1000 /\
    0 <= s_gs p cum n < 26/100 /\
    0 <= s_gi p cum n <= 6/1000 + INR n * dt p * (1 + 15/10 * Tmax) / 1000 /\ s_gi p cum n < 73/10.
  Proof.
    pose proof dtpos as D. induction n as [|n IH]; intros Hn H.
    - cbn [s_th s_gs s_gi INR]. unfold slr_thermal_expansion_init, slr_thermal_init, slr_thermal_adjust_rate, slr_thermal_equil. repeat split; try lra.
    - destruct (IH ltac:(lia) (fun t Ht => H t ltac:(lia))) as (A & B & C1 & C2).
      destruct (H n ltac:(lia)) as [H1 H2].
      assert (TT : T0 p <= s_temp p cum n <= Tmax).
      { unfold s_temp. specialize (HTm n ltac:(unfold model_step; lia)).
        assert (TCRE p * cum n <= TCRE p * Cb n) by (apply Rmult_le_compat_l; auto).
        assert (0 <= TCRE p * cum n) by (apply Rmult_le_pos; auto). lra. }
      rewrite S_INR. cbn [s_th s_gs s_gi]. set (T := s_temp p cum n) in *.
      assert (N0 : 0 <= INR n) by apply pos_INR.
      assert (DTT : 0 <= dt p * T) by (apply Rmult_le_pos; lra).
      assert (DTM : dt p * T <= dt p * Tmax) by (apply Rmult_le_compat_l; lra).
      split.
      + assert (Q : 0 < pypow (1 - slr_thermal_adjust_rate) (dt p / 10) <= 1).
        { rewrite pypow_pos by (unfold slr_thermal_adjust_rate; lra). split; [apply exp_pos|]. apply Rpower_le1; [lra|unfold slr_thermal_adjust_rate; lra]. }
        set (q := pypow _ _) in *. unfold slr_thermal_adjust_rate, slr_thermal_equil.
        assert (0 <= q * s_th p cum n) by (apply Rmult_le_pos; lra).
        assert (q * s_th p cum n <= s_th p cum n) by nra.
        assert (0 <= dt p * (T * (1/2))) by lra.
        split; [lra|]. lra.
      + split.
        * unfold slr_gsic_melt_rate, slr_gsic_total_ice, slr_gsic_equil_temp.
          set (g := s_gs p cum n) in *.
          set (k := 8/10000 * dt p * (T + 1) / (26/100)).
          assert (K : 0 <= k < 1) by (unfold k; split; lra).
          replace (g + 8 / 10000 / (26 / 100) * dt p * (26 / 100 - g) * (T - -1)) with (26/100 - (26/100 - g) * (1 - k)) by (unfold k; field).
          assert (0 < (26/100 - g) * (1 - k)) by (apply Rmult_lt_0_compat; lra).
          assert (0 <= (26/100 - g) * k) by (apply Rmult_le_pos; lra). lra.
        * unfold slr_gis_melt_rate_above_thresh, slr_gis_init_melt_rate, slr_gis_init_ice_vol.
          set (g := s_gi p cum n) in *.
          set (j := dt p / 1000 * (111860082/100000000 * T + 6/10) / (73/10)).
          assert (J : 0 <= j < 1) by (unfold j; split; lra).
          replace (g + dt p / 10 * (1 / 100) * (111860082 / 100000000 * T + 6 / 10) * (1 - g / (73 / 10)))
            with (g + j * (73/10 - g)) by (unfold j; field).
          assert (0 <= j * (73/10 - g)) by (apply Rmult_le_pos; lra).
          assert (j * (73/10 - g) <= j * (73/10)) by (apply Rmult_le_compat_l; lra).
          assert (j * (73/10) = dt p / 1000 * (111860082/100000000 * T + 6/10)) by (unfold j; field).
          assert (0 < (73/10 - g) * (1 - j)) by (apply Rmult_lt_0_compat; lra).
          split; [split; [lra|]|]; lra.
  Qed.
  Lemma slr_ceiling cum n : (n <= tf p)%nat -> (forall t, (t < n)%nat -> 0 <= cum t <= Cb t) ->
    0 <= s_slr p cum n <= sea_level_ceiling p Tmax.
  Proof.
    intros Hn H. destruct (slr_range cum n Hn H) as (A & B & C1 & _).
    unfold s_slr, sea_level_ceiling. unfold slr_thermal_expansion_init, slr_thermal_init, slr_thermal_adjust_rate, slr_thermal_equil in A.
    assert (TM : 0 <= Tmax).
    { specialize (HTm 0%nat ltac:(unfold model_step; lia)). destruct ENV as (_ & E0 & _). assert (0 <= TCRE p * Cb 0%nat) by (apply Rmult_le_pos; auto). lra. }
    pose proof dtpos. assert (I : INR n <= INR (tf p)) by (apply le_INR; auto). pose proof (pos_INR n).
    assert (D1 : INR n * dt p <= INR (tf p) * dt p) by (apply Rmult_le_compat_r; lra).
    assert (D0 : 0 <= INR n * dt p) by (apply Rmult_le_pos; lra).
    assert (D2 : INR n * dt p * Tmax <= INR (tf p) * dt p * Tmax) by (apply Rmult_le_compat_r; auto).
    split; lra.
  Qed.
  Lemma keep_range cum n r : (n <= tf p)%nat -> In r (regions p) -> (forall t, (t <= n)%nat -> 0 <= cum t <= Cb t) ->
    0 <= s_keep p cum n r <= kap.
  Proof.
    intros Hn Hr H. unfold s_keep, s_dam. destruct (ignore_damages p) eqn:IG; [lra|].
    destruct (dmg_module p) eqn:DM; [|lra].
    assert (TT : T0 p <= s_temp p cum n <= Tmax).
    { unfold s_temp. destruct (H n ltac:(lia)). specialize (HTm n Hn).
      assert (TCRE p * cum n <= TCRE p * Cb n) by (apply Rmult_le_compat_l; auto).
      assert (0 <= TCRE p * cum n) by (apply Rmult_le_pos; auto). lra. }
    destruct (DMG eq_refl eq_refl r (s_temp p cum n) (s_slr p cum n) Hr TT (slr_ceiling cum n Hn (fun t Ht => H t ltac:(lia)))) as [A B].
    unfold damages_at in A, B. unfold s_dn, s_ds. change (s_slr p cum 0) with (slr_thermal_expansion_init p + 15/1000 + 6/1000). lra.
  Qed.

  (** one more step *)
  Definition upd (cum : nat -> R) (n : nat) (c : R) : nat -> R := fun t => if Nat.eqb t (S n) then c else cum t.
  Lemma upd_agree cum n c : agree n (upd cum n c) cum.
  Proof. intros s Hs. unfold upd. destruct (Nat.eqb s (S n)) eqn:E; auto. apply Nat.eqb_eq in E. lia. Qed.
  Lemma upd_S cum n c : upd cum n c (S n) = c.
  Proof. unfold upd. rewrite Nat.eqb_refl. reflexivity. Qed.

  Section Step.
    Variables (cum : nat -> R) (n : nat).
    Hypothesis Hn : (S n <= tf p)%nat.
    Hypothesis CB : forall t, (t <= n)%nat -> 0 <= cum t <= Cb t.
    Hypothesis KB : forall r, In r (regions p) -> 0 < s_K p a cum n r <= Kb n r.
    Notation c_ := (fun c => upd cum n c).
    Let sig r := baseline_carbon_intensity p (S n) r.
    Definition theta (r : region) (c : R) : R :=
      Rmax 0 (s_keep p (upd cum n c) (S n) r) / (1 + s_unit p a (upd cum n c) (S n) r * sig r).
    Definition coef (r : region) (c : R) : R := dt p * sr p * theta r c * s_prod p (S n) r.
    Definition zed (r : region) (c : R) : R := solve sv (s_K p a cum n r) (Rmax 0 (coef r c)) (alpha p).
    Definition net (r : region) (c : R) : R := s_prod p (S n) r * Rpower (smin 10 (zed r c)) (alpha p) * theta r c.
    Definition emis (c : R) : R := Rsum (fun r => (1 - a (S n) r) * (sig r * net r c)) (regions p).

    Lemma den_pos r c : In r (regions p) -> 1 <= 1 + s_unit p a (upd cum n c) (S n) r * sig r.
    Proof.
      intros Hr. assert (0 <= s_unit p a (upd cum n c) (S n) r * sig r); [|lra].
      apply Rmult_le_pos; [apply unit_nn; auto|apply sigma_nn; auto].
    Qed.
    Lemma theta_nn r c : In r (regions p) -> 0 <= theta r c.
    Proof.
      intros Hr. unfold theta, Rdiv. pose proof (den_pos r c Hr). apply Rmult_le_pos; [apply Rmax_l|apply Rlt_le, Rinv_0_lt_compat; lra].
    Qed.
    Lemma coef_nn r c : In r (regions p) -> 0 <= coef r c.
    Proof.
      intros Hr. unfold coef. pose proof dtpos. pose proof srpos. destruct (scale_eq (S n) r Hn Hr) as [-> P].
      apply Rmult_le_pos; [apply Rmult_le_pos; [apply Rmult_le_pos; lra|apply theta_nn; auto]|lra].
    Qed.
    Lemma cb_next : Cb n + inc (Eb (S n)) (Eb n) <= Cb (S n).
    Proof.
      destruct ENV as (_ & _ & E). destruct (E n Hn) as [_ E2]. unfold inc. fold (Yb (S n)) in E2.
      destruct (cum_trapz p); unfold Eb, Yb; lra.
    Qed.
    Lemma upd_range c : 0 <= c <= Cb (S n) -> forall t, (t <= S n)%nat -> 0 <= upd cum n c t <= Cb t.
    Proof.
      intros Hc t Ht. unfold upd. destruct (Nat.eqb t (S n)) eqn:E; [apply Nat.eqb_eq in E; subst; auto|].
      apply Nat.eqb_neq in E. apply CB. lia.
    Qed.
    Lemma theta_le r c : In r (regions p) -> 0 <= c <= Cb (S n) -> theta r c <= kap.
    Proof.
      intros Hr Hc. unfold theta. destruct (keep_range (upd cum n c) (S n) r Hn Hr (upd_range c Hc)) as [A B].
      rewrite Rmax_right by auto. pose proof (den_pos r c Hr) as D.
      apply Rmult_le_reg_r with (1 + s_unit p a (upd cum n c) (S n) r * sig r); [lra|].
      unfold Rdiv. rewrite Rmult_assoc, Rinv_l, Rmult_1_r by lra.
      apply Rle_trans with (1 := B). rewrite <- (Rmult_1_r kap) at 1. apply Rmult_le_compat_l; lra.
    Qed.
    Lemma zed_range r c : In r (regions p) -> 0 <= c <= Cb (S n) -> 0 < zed r c <= Kb (S n) r.
    Proof.
      intros Hr Hc. pose proof sv1 as S1. destruct (KB r Hr) as [K0 K1]. pose proof (coef_nn r c Hr) as C0.
      unfold zed. rewrite Rmax_right by auto. split; [apply solve_pos; lra|].
      apply (solve_super sv (s_K p a cum n r) (Kb n r) (coef r c) (dt p * sr p * kap * output_scale p (S n) r)); try lra.
      - unfold coef. destruct (scale_eq (S n) r Hn Hr) as [-> P]. pose proof dtpos. pose proof srpos.
        apply Rmult_le_compat_r; [lra|]. apply Rmult_le_compat_l; [apply Rmult_le_pos; lra|apply theta_le; auto].
      - destruct ENV as (_ & _ & E). destruct (E n Hn) as [E1 _]. specialize (E1 r Hr). unfold sv. lra.
    Qed.
    Lemma net_range r c : In r (regions p) -> 0 <= c <= Cb (S n) -> 0 <= net r c <= kap * Yb (S n) r.
    Proof.
      intros Hr Hc. unfold net. destruct (scale_eq (S n) r Hn Hr) as [-> P]. destruct (zed_range r c Hr Hc) as [Z0 Z1].
      pose proof (theta_nn r c Hr). pose proof (theta_le r c Hr Hc).
      assert (P0 : 0 < Rpower (smin 10 (zed r c)) (alpha p)) by apply exp_pos.
      assert (P1 : Rpower (smin 10 (zed r c)) (alpha p) <= Rpower (smin 10 (Kb (S n) r)) (alpha p)).
      { apply Rpower_le_base; [lra|apply smin_pos; lra|apply smin_le; lra]. }
      assert (0 < output_scale p (S n) r * Rpower (smin 10 (zed r c)) (alpha p)) by (apply Rmult_lt_0_compat; auto).
      assert (output_scale p (S n) r * Rpower (smin 10 (zed r c)) (alpha p) <= Yb (S n) r) by (unfold Yb; apply Rmult_le_compat_l; lra).
      split; [apply Rmult_le_pos; lra|]. rewrite (Rmult_comm kap). apply Rmult_le_compat; lra.
    Qed.
    Lemma emis_range c : 0 <= c <= Cb (S n) -> 0 <= emis c <= Eb (S n).
    Proof.
      intros Hc. unfold emis, Eb, total. split.
      - apply Rsum_nonneg. intros r Hr. destruct (HA (S n) r Hn Hr). destruct (net_range r c Hr Hc).
        apply Rmult_le_pos; [lra|]. apply Rmult_le_pos; [apply sigma_nn; auto|auto].
      - apply Rsum_le. intros r Hr. destruct (HA (S n) r Hn Hr). destruct (net_range r c Hr Hc).
        pose proof (sigma_nn (S n) r Hn Hr) as S0. fold (sig r) in *.
        assert (0 <= sig r * net r c) by (apply Rmult_le_pos; auto).
        assert (sig r * net r c <= sig r * (kap * Yb (S n) r)) by (apply Rmult_le_compat_l; auto). nra.
    Qed.
    Lemma K_zed r c : In r (regions p) -> 0 <= c <= Cb (S n) -> s_K p a (upd cum n c) (S n) r = zed r c.
    Proof.
      intros Hr Hc. cbn [s_K]. rewrite UC. unfold zed. rewrite (Rmax_right 0 (coef r c)) by (apply coef_nn; auto).
      rewrite (x_K p a _ _ n r (upd_agree cum n c)).
      destruct (keep_range (upd cum n c) (S n) r Hn Hr (upd_range c Hc)) as [A B].
      unfold coef, theta. rewrite Rmax_right by auto. reflexivity.
    Qed.
    Lemma ge_emis c : 0 <= c <= Cb (S n) -> s_ge p a (upd cum n c) (S n) = emis c.
    Proof.
      intros Hc. unfold s_ge, emis. apply Rsum_ext. intros r Hr. cbn [s_em]. unfold s_base, s_Yn. rewrite UC. fold (sig r).
      f_equal. f_equal. unfold s_Y. rewrite (K_zed r c Hr Hc). unfold net.
      rewrite pypow_pos by (apply smin_pos; lra).
      destruct (keep_range (upd cum n c) (S n) r Hn Hr (upd_range c Hc)) as [A B].
      unfold theta. rewrite Rmax_right by auto. reflexivity.
    Qed.
    Lemma theta_cont r x : In r (regions p) -> continuity_pt (theta r) x.
    Proof.
      intros Hr. unfold theta. apply cont_div.
      - apply (cont_max (fun c => s_keep p (upd cum n c) (S n) r)).
        apply (cont_ext (fun c => 1 - (if ignore_damages p then 0 else match dmg_module p with COACCH =>
          damage_scale_factor p * (damage_curve (dmg_noslr p) r (T0 p + TCRE p * c - 6/10) - damage_curve (dmg_noslr p) r (T0 p - 6/10))
          + s_ds p cum (S n) r | nodamage => 0 end))).
        { intros c. unfold s_keep, s_dam, s_dn. unfold s_temp. rewrite (x_ds p _ _ n r (upd_agree cum n c)), upd_S. reflexivity. }
        apply cont_sub; [apply cont_const|]. destruct (ignore_damages p); [apply cont_const|]. destruct (dmg_module p) eqn:DM; [|apply cont_const].
        apply cont_add; [|apply cont_const]. apply cont_mul; [apply cont_const|]. apply cont_sub; [|apply cont_const].
        apply (cont_comp (fun c => T0 p + TCRE p * c - 6/10) (damage_curve (dmg_noslr p) r)).
        + apply cont_sub; [|apply cont_const]. apply cont_add; [apply cont_const|]. apply cont_mul; [apply cont_const|apply cont_id].
        + apply cont_curve. intros L1 L2. destruct SD as (_ & _ & _ & _ & LG & _). apply LG; auto.
          destruct U as (_ & _ & _ & _ & _ & _ & _ & KF). destruct (KF DM r Hr) as [KF1 _].
          unfold known_form in KF1. rewrite L1, L2 in KF1. intuition congruence.
      - apply cont_add; [apply cont_const|]. apply cont_mul; [|apply cont_const].
        apply (cont_ext (fun c => Rpower (smin 1 ((cumulative_global_baseline_emissions p (S n) - c) / LBD_scaling p + 1)) (log_LBD_rate p)
          * s_lot p (S n) * MAC_scaling p r * MAC_gamma p * pypow (a (S n) r) (MAC_beta p + 1) / (MAC_beta p + 1))).
        { intros c. unfold s_unit, s_learn, s_lbd. rewrite upd_S. rewrite (pypow_pos (smin _ _)) by (apply smin_pos; lra). reflexivity. }
        destruct U as (_ & _ & _ & _ & LB & _).
        apply cont_div; [|apply cont_const|destruct NR as (_ & _ & _ & B & _); lra].
        do 4 (apply cont_mul; [|apply cont_const]).
        apply cont_power; [|apply smin_pos; lra]. apply cont_smin; [lra|]. apply cont_add; [|apply cont_const].
        apply cont_div; [|apply cont_const|auto]. apply cont_sub; [apply cont_const|apply cont_id].
      - pose proof (den_pos r x Hr). lra.
    Qed.
    Lemma net_cont r x : In r (regions p) -> continuity_pt (net r) x.
    Proof.
      intros Hr. pose proof sv1. unfold net. apply cont_mul; [|apply theta_cont; auto]. apply cont_mul; [apply cont_const|].
      apply cont_power; [|apply smin_pos; lra]. apply cont_smin; [lra|]. unfold zed.
      apply (cont_comp (coef r) (fun B => solve sv (s_K p a cum n r) (Rmax 0 B) (alpha p))).
      - unfold coef. apply cont_mul; [|apply cont_const]. apply cont_mul; [apply cont_const|apply theta_cont; auto].
      - apply solve_cont; try lra. apply KB; auto.
    Qed.
    Lemma emis_cont : continuity emis.
    Proof.
      intros x. unfold emis. apply (cont_sum (fun c r => (1 - a (S n) r) * (sig r * net r c))). intros r Hr.
      apply cont_mul; [apply cont_const|]. apply cont_mul; [apply cont_const|apply net_cont; auto].
    Qed.
    Variable E0 : R.
    Hypothesis HE0 : 0 <= E0 <= Eb n.
    Lemma step_exists : exists c, 0 <= c <= Cb (S n) /\ c = cum n + inc (emis c) E0.
    Proof.
      pose proof cb_next as CN. destruct (CB n ltac:(lia)) as [C0 C1]. pose proof dtpos as D.
      assert (IR : forall e, 0 <= e <= Eb (S n) -> 0 <= inc e E0 <= inc (Eb (S n)) (Eb n)).
      { intros e He. unfold inc. destruct (cum_trapz p).
        - assert (0 <= dt p * (e + E0)) by (apply Rmult_le_pos; lra).
          assert (dt p * (e + E0) <= dt p * (Eb (S n) + Eb n)) by (apply Rmult_le_compat_l; lra). lra.
        - split; [apply Rmult_le_pos; lra|apply Rmult_le_compat_l; lra]. }
      assert (E1 : 0 <= emis (cum n) <= Eb (S n)).
      { apply emis_range. split; auto. apply Rle_trans with (Cb n); auto.
        destruct (emis_range 0) as [Q1 Q2]. 2: { destruct (IR (emis 0) (conj Q1 Q2)). lra. }
        split; [lra|].
        assert (0 <= Eb (S n)).
        { unfold Eb, total. apply Rsum_nonneg. intros r Hr. apply Rmult_le_pos; [apply sigma_nn; auto|]. apply Rmult_le_pos; [lra|].
          unfold Yb. destruct (scale_eq (S n) r Hn Hr) as [_ P]. apply Rmult_le_pos; [lra|apply Rlt_le, exp_pos]. }
        destruct (IR (Eb (S n))); lra. }
      pose proof (IR _ E1) as I1.
      assert (L : cum n <= Cb (S n)) by lra.
      assert (E2 : 0 <= emis (Cb (S n)) <= Eb (S n)) by (apply emis_range; lra).
      pose proof (IR _ E2) as I2.
      set (h := fun c => c - cum n - inc (emis c) E0).
      assert (HC0 : continuity h).
      { intros x. pose proof (emis_cont x) as EC. unfold h. apply cont_sub; [apply cont_sub; [apply cont_id|apply cont_const]|].
        unfold inc. destruct (cum_trapz p).
        - apply cont_div; [|apply cont_const|lra]. apply cont_mul; [apply cont_const|]. apply cont_add; [exact EC|apply cont_const].
        - apply cont_mul; [apply cont_const|exact EC]. }
      destruct (IVT_cor h (cum n) (Cb (S n)) HC0 L) as [z [Z1 Z2]].
      { assert (h (cum n) <= 0) by (unfold h; lra). assert (0 <= h (Cb (S n))) by (unfold h; lra). nra. }
      exists z. split; [lra|]. unfold h in Z2. lra.
    Qed.
  End Step.

  (** a whole path *)
  Lemma path_exists n : (n <= tf p)%nat -> exists cum : nat -> R, cum 0%nat = 0 /\
    (forall t, (t <= n)%nat -> 0 <= cum t <= Cb t) /\
    (forall t, (S t <= n)%nat -> cum (S t) = cum t + inc (s_ge p a cum (S t)) (s_ge p a cum t)) /\
    (forall t r, (t <= n)%nat -> In r (regions p) -> 0 < s_K p a cum t r <= Kb t r) /\
    (forall t, (t <= n)%nat -> 0 <= s_ge p a cum t <= Eb t).
  Proof.
    induction n as [|n IH]; intros Hn.
    - exists (fun _ => 0). destruct ENV as (K0 & C0 & _). split; [reflexivity|]. split; [|split; [|split]].
      + intros t Ht. assert (t = 0%nat) by lia. subst. lra.
      + intros t Ht. lia.
      + intros t r Ht Hr. assert (t = 0%nat) by lia. subst. cbn [s_K]. split; [|apply K0; auto].
        destruct SD as (_ & PD & _). destruct (PD r Hr) as [I D]. apply Rmult_lt_0_compat; [auto|]. apply (D 0%nat). unfold model_step. lia.
      + intros t Ht. assert (t = 0%nat) by lia. subst. split.
        * unfold s_ge. apply Rsum_nonneg. intros r Hr. cbn [s_em]. apply BE; [unfold model_step; lia|auto].
        * right. unfold s_ge, Eb, total. apply Rsum_ext. reflexivity.
    - destruct (IH ltac:(lia)) as (cum & Z & CB & ST & KB & GE).
      assert (KBn : forall r, In r (regions p) -> 0 < s_K p a cum n r <= Kb n r) by (intros; apply KB; auto).
      destruct (step_exists cum n Hn CB KBn _ (GE n ltac:(lia))) as [c [Hc E]].
      exists (upd cum n c). split; [unfold upd; cbn; auto|]. split; [apply upd_range; auto|]. split; [|split].
      + intros t Ht. destruct (Nat.eq_dec t n) as [->|Hne].
        * rewrite upd_S, (ge_emis cum n Hn CB c Hc). rewrite (x_ge p a _ cum n (upd_agree cum n c)).
          rewrite (upd_agree cum n c n) by lia. exact E.
        * assert (Hl : (S t <= n)%nat) by lia.
          rewrite (x_ge p a _ cum (S t)) by (apply (agree_le n); [lia|apply upd_agree]).
          rewrite (x_ge p a _ cum t) by (apply (agree_le n); [lia|apply upd_agree]).
          rewrite !(upd_agree cum n c) by lia. apply ST; auto.
      + intros t r Ht Hr. destruct (Nat.eq_dec t (S n)) as [->|Hne].
        * rewrite (K_zed cum n Hn CB r c Hr Hc). apply zed_range; auto.
        * rewrite (x_K p a _ cum t r) by (apply (agree_le n); [lia|apply upd_agree]). apply KB; auto. lia.
      + intros t Ht. destruct (Nat.eq_dec t (S n)) as [->|Hne].
        * rewrite (ge_emis cum n Hn CB c Hc). apply emis_range; auto.
        * rewrite (x_ge p a _ cum t) by (apply (agree_le n); [lia|apply upd_agree]). apply GE. lia.
  Qed.
End Bounds.
