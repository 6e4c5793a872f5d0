(** Derivatives from the right at 0, also of quantities that are only defined by an equation (the capital stock). *)
From Coq Require Import Reals List Lra Lia.
From Verif Require Import ModelFacts SoftFacts ModelSpec PowFacts SolveFacts.
Import ListNotations.
Open Scope R_scope.
Set Bullet Behavior "Strict Subproofs".

Definition soonp (P : R -> Prop) : Prop := exists e, 0 < e /\ forall d, 0 < d < e -> P d.
Lemma soonp_and P Q : soonp P -> soonp Q -> soonp (fun d => P d /\ Q d).
Proof.
  intros (e & He & HP) (e' & He' & HQ). exists (Rmin e e'). split; [apply Rmin_glb_lt; auto|]. intros d [D0 Hd].
  pose proof (Rmin_l e e'). pose proof (Rmin_r e e'). split; [apply HP|apply HQ]; lra.
Qed.
Lemma soonp_imp (P Q : R -> Prop) : soonp P -> (forall d, 0 < d -> P d -> Q d) -> soonp Q.
Proof. intros (e & He & H) I. exists e. split; [auto|]. intros d D. apply I; [lra|auto]. Qed.
Lemma soonp_false : ~ soonp (fun _ => False).
Proof. intros (e & He & H). apply (H (e / 2)). lra. Qed.

(** [f] has derivative [l] from the right at 0. *)
Definition rd (f : R -> R) (l : R) : Prop := forall eps, 0 < eps -> soonp (fun d => Rabs (f d - f 0 - l * d) <= eps * d).
Lemma rd_eq f l l' : rd f l -> l = l' -> rd f l'.
Proof. intros H <-. exact H. Qed.
Lemma rd_ext f g l : f 0 = g 0 -> soonp (fun d => f d = g d) -> rd f l -> rd g l.
Proof.
  intros E0 S H eps He. eapply soonp_imp; [apply (soonp_and _ _ S (H eps He))|]. intros d D [E L]. cbv beta in *. rewrite <- E, <- E0. exact L.
Qed.
Lemma rd_same f g l : (forall d, f d = g d) -> rd f l -> rd g l.
Proof. intros E. apply rd_ext; [apply E|]. exists 1. split; [lra|]. intros; apply E. Qed.
Lemma rd_const c : rd (fun _ => c) 0.
Proof. intros eps He. exists 1. split; [lra|]. intros d D. replace (c - c - 0 * d) with 0 by ring. rewrite Rabs_R0. nra. Qed.
Lemma rd_id : rd (fun d => d) 1.
Proof. intros eps He. exists 1. split; [lra|]. intros d D. replace (d - 0 - 1 * d) with 0 by ring. rewrite Rabs_R0. nra. Qed.
Lemma rd_plus f g l m : rd f l -> rd g m -> rd (fun d => f d + g d) (l + m).
Proof.
  intros F G eps He. eapply soonp_imp; [apply (soonp_and _ _ (F (eps / 2) ltac:(lra)) (G (eps / 2) ltac:(lra)))|]. intros d D [A B]. cbv beta in *.
  replace (f d + g d - (f 0 + g 0) - (l + m) * d) with ((f d - f 0 - l * d) + (g d - g 0 - m * d)) by ring.
  apply Rle_trans with (1 := Rabs_triang _ _). lra.
Qed.
Lemma rd_scal c f l : rd f l -> rd (fun d => c * f d) (c * l).
Proof.
  intros F eps He. assert (P : 0 < Rabs c + 1) by (pose proof (Rabs_pos c); lra).
  eapply soonp_imp; [apply (F (eps / (Rabs c + 1)) ltac:(apply Rdiv_lt_0_compat; lra))|]. intros d D A. cbv beta in *.
  replace (c * f d - c * f 0 - c * l * d) with (c * (f d - f 0 - l * d)) by ring. rewrite Rabs_mult.
  apply Rle_trans with (Rabs c * (eps / (Rabs c + 1) * d)); [apply Rmult_le_compat_l; [apply Rabs_pos|exact A]|].
  apply Rle_trans with ((Rabs c + 1) * (eps / (Rabs c + 1) * d)); [|right; field; lra].
  apply Rmult_le_compat_r; [|lra]. apply Rmult_le_pos; [left; apply Rdiv_lt_0_compat; lra|lra].
Qed.
Lemma rd_minus f g l m : rd f l -> rd g m -> rd (fun d => f d - g d) (l - m).
Proof.
  intros F G. apply (rd_same (fun d => f d + (-1) * g d)); [intros; ring|]. apply rd_eq with (l + (-1) * m); [|ring]. apply rd_plus; [exact F|apply rd_scal; exact G].
Qed.
Lemma rd_sum {A} (f : R -> A -> R) l' (l : list A) : (forall q, In q l -> rd (fun d => f d q) (l' q)) ->
  rd (fun d => fold_right (fun q acc => f d q + acc) 0 l) (fold_right (fun q acc => l' q + acc) 0 l).
Proof. induction l as [|q l IH]; intros H; cbn [fold_right]; [apply rd_const|]. apply rd_plus; [apply H; left; reflexivity|apply IH; intros; apply H; right; auto]. Qed.
Lemma rd_steps (f : R -> nat -> R) l' n : (forall t, (1 <= t <= n)%nat -> rd (fun d => f d t) (l' t)) -> rd (fun d => steps_sum (f d) n) (steps_sum l' n).
Proof. induction n as [|n IH]; intros H; cbn [steps_sum]; [apply rd_const|]. apply rd_plus; [apply IH; intros; apply H; lia|apply H; lia]. Qed.
(** Small differences *)
Lemma rd_near f l : rd f l -> forall eta, 0 < eta -> soonp (fun d => Rabs (f d - f 0) < eta).
Proof.
  intros F eta He. assert (P : 0 < Rabs l + 2) by (pose proof (Rabs_pos l); lra).
  destruct (F 1 ltac:(lra)) as (e & E0 & H). exists (Rmin e (eta / (Rabs l + 2))).
  split; [apply Rmin_glb_lt; [auto|apply Rdiv_lt_0_compat; lra]|]. intros d [D0 D1].
  pose proof (Rmin_l e (eta / (Rabs l + 2))). pose proof (Rmin_r e (eta / (Rabs l + 2))). specialize (H d ltac:(lra)).
  replace (f d - f 0) with ((f d - f 0 - l * d) + l * d) by ring. apply Rle_lt_trans with (1 := Rabs_triang _ _).
  rewrite (Rabs_mult l d), (Rabs_right d) by lra.
  assert (D2 : d < eta / (Rabs l + 2)) by lra. apply (Rmult_lt_compat_r (Rabs l + 2)) in D2; [|lra]. unfold Rdiv in D2. rewrite Rmult_assoc, Rinv_l, Rmult_1_r in D2 by lra.
  pose proof (Rabs_pos l). nra.
Qed.
Lemma rd_lt f l c : rd f l -> f 0 < c -> soonp (fun d => f d < c).
Proof. intros F L. eapply soonp_imp; [apply (rd_near f l F (c - f 0)); lra|]. intros d D A. apply Rabs_def2 in A. lra. Qed.
Lemma rd_comp g h l m : rd g l -> derivable_pt_lim h (g 0) m -> rd (fun d => h (g d)) (m * l).
Proof.
  intros G H eps He. pose proof (Rabs_pos m) as Pm. pose proof (Rabs_pos l) as Pl.
  set (e1 := eps / (2 * (Rabs l + 1))). set (e2 := Rmin 1 (eps / (2 * (Rabs m + 1)))).
  assert (P1 : 0 < e1) by (apply Rdiv_lt_0_compat; lra).
  assert (P2 : 0 < e2) by (apply Rmin_glb_lt; [lra|apply Rdiv_lt_0_compat; lra]).
  destruct (H e1 P1) as (dl & Hd). pose proof (cond_pos dl) as Pd.
  eapply soonp_imp; [apply (soonp_and _ _ (rd_near g l G dl Pd) (G e2 P2))|]. intros d D [A B]. cbv beta in *.
  assert (X : Rabs (h (g d) - h (g 0) - m * (g d - g 0)) <= e1 * Rabs (g d - g 0)).
  { destruct (Req_dec (g d - g 0) 0) as [Z|N].
    - assert (E : g d = g 0) by lra. rewrite E. replace (h (g 0) - h (g 0) - m * (g 0 - g 0)) with 0 by ring. replace (g 0 - g 0) with 0 by ring. rewrite Rabs_R0. lra.
    - specialize (Hd (g d - g 0) N A). replace (g 0 + (g d - g 0)) with (g d) in Hd by ring.
      replace (h (g d) - h (g 0) - m * (g d - g 0)) with (((h (g d) - h (g 0)) / (g d - g 0) - m) * (g d - g 0)) by (field; exact N).
      rewrite Rabs_mult. apply Rmult_le_compat_r; [apply Rabs_pos|lra]. }
  assert (Y : Rabs (g d - g 0) <= (Rabs l + 1) * d).
  { replace (g d - g 0) with ((g d - g 0 - l * d) + l * d) by ring. apply Rle_trans with (1 := Rabs_triang _ _).
    rewrite (Rabs_mult l d), (Rabs_right d) by lra. assert (E21 : e2 <= 1) by apply Rmin_l. nra. }
  replace (h (g d) - h (g 0) - m * l * d) with ((h (g d) - h (g 0) - m * (g d - g 0)) + m * (g d - g 0 - l * d)) by ring.
  apply Rle_trans with (1 := Rabs_triang _ _). rewrite (Rabs_mult m).
  assert (Q1 : e1 * Rabs (g d - g 0) <= eps / 2 * d).
  { apply Rle_trans with (e1 * ((Rabs l + 1) * d)); [apply Rmult_le_compat_l; lra|]. right. unfold e1. field. lra. }
  assert (Q2 : Rabs m * Rabs (g d - g 0 - l * d) <= eps / 2 * d).
  { apply Rle_trans with ((Rabs m + 1) * (e2 * d)); [apply Rmult_le_compat; try lra; apply Rabs_pos|].
    apply Rle_trans with ((Rabs m + 1) * (eps / (2 * (Rabs m + 1)) * d)); [|right; field; lra].
    apply Rmult_le_compat_l; [lra|]. apply Rmult_le_compat_r; [lra|]. unfold e2. apply Rmin_r. }
  lra.
Qed.
Lemma rd_deriv h m : derivable_pt_lim h 0 m -> rd h m.
Proof. intros H. apply rd_eq with (m * 1); [|ring]. apply (rd_comp (fun d => d) h 1 m rd_id H). Qed.
(** Signs *)
Lemma rd_increase f l : rd f l -> 0 < l -> soonp (fun d => f 0 < f d).
Proof.
  intros F L. eapply soonp_imp; [apply (F (l / 2) ltac:(lra))|]. intros d D A. cbv beta in A. pose proof (Rle_abs (- (f d - f 0 - l * d))) as B. rewrite Rabs_Ropp in B. nra.
Qed.
Lemma rd_decrease f l : rd f l -> l < 0 -> soonp (fun d => f d < f 0).
Proof.
  intros F L. pose proof (rd_scal (-1) f l F) as G. eapply soonp_imp; [apply (rd_increase _ _ G); lra|]. intros d D A. cbv beta in A. lra.
Qed.
Lemma rd_nonpos f l : rd f l -> soonp (fun d => f d <= f 0) -> l <= 0.
Proof.
  intros F S. destruct (Rle_lt_dec l 0) as [L|L]; [exact L|exfalso]. apply soonp_false.
  eapply soonp_imp; [apply (soonp_and _ _ S (rd_increase f l F L))|]. intros d D [A B]. cbv beta in *. lra.
Qed.
Lemma rd_unique f l m : rd f l -> rd f m -> l = m.
Proof.
  intros F G. pose proof (rd_minus f f l m F G) as H. assert (S : soonp (fun d => f d - f d <= f 0 - f 0)) by (exists 1; split; [lra|intros; lra]).
  pose proof (rd_nonpos _ _ H S). pose proof (rd_minus f f m l G F) as H'. pose proof (rd_nonpos _ _ H' S). lra.
Qed.

(** The capital equation s K = m + B smin(10, K)^al, with [m] moving. *)
Lemma rd_implicit s (m K g : R -> R) B al m' g' :
  1 <= s -> 0 <= al <= 1 -> 0 <= B -> 0 < m 0 -> rd m m' -> (forall x, g x = B * Rpower (smin 10 x) al) -> derivable_pt_lim g (K 0) g' ->
  s * K 0 = m 0 + g (K 0) -> soonp (fun d => s * K d = m d + g (K d)) -> 0 < s - g' -> rd K (m' / (s - g')).
Proof.
  intros Hs Ha HB Hm M HG Dg E0 E D. set (k := m' / (s - g')). intros eps He.
  assert (CF : forall mm x, capf s mm B al x = s * x - mm - g x) by (intros; unfold capf; rewrite HG; reflexivity).
  assert (MP : soonp (fun d => 0 < m d)).
  { eapply soonp_imp; [apply (rd_near m m' M (m 0) Hm)|]. intros d _ A. apply Rabs_def2 in A. lra. }
  assert (LINE : forall c, rd (fun d => s * (K 0 + c * d) - m d - g (K 0 + c * d)) (s * c - m' - g' * c)).
  { intros c. assert (L : rd (fun d => K 0 + c * d) c).
    { apply rd_eq with (0 + c * 1); [|ring]. apply rd_plus; [apply rd_const|apply rd_scal, rd_id]. }
    apply rd_minus; [apply rd_minus; [apply rd_scal; exact L|exact M]|].
    apply (rd_comp (fun d => K 0 + c * d) g c g' L). replace (K 0 + c * 0) with (K 0) by ring. exact Dg. }
  assert (KE : k * (s - g') = m') by (unfold k; field; lra).
  assert (Z : s * (K 0 + 0) - m 0 - g (K 0 + 0) = 0) by (rewrite Rplus_0_r; lra).
  pose proof (rd_increase _ _ (LINE (k + eps)) ltac:(nra)) as UP. pose proof (rd_decrease _ _ (LINE (k - eps)) ltac:(nra)) as DN.
  cbv beta in UP, DN. rewrite Rmult_0_r, Z in UP, DN.
  eapply soonp_imp; [apply (soonp_and _ _ E (soonp_and _ _ MP (soonp_and _ _ UP DN)))|]. intros d Pd (Ed & Md & Ud & Ld). cbv beta in *.
  assert (Zd : capf s (m d) B al (K d) = 0) by (rewrite CF; lra).
  assert (U1 : K d <= K 0 + (k + eps) * d).
  { destruct (Rle_lt_dec (K d) (K 0 + (k + eps) * d)) as [L|L]; [exact L|exfalso].
    destruct (capf_sign_pos s (m d) B al (K 0 + (k + eps) * d) (K d) Hs (proj1 Ha) (proj2 Ha) ltac:(lra) HB ltac:(lra) Zd) as (Q & _ & _). specialize (Q L). rewrite CF in Q. lra. }
  assert (L1 : K 0 + (k - eps) * d <= K d).
  { destruct (Rle_lt_dec (K 0 + (k - eps) * d) (K d)) as [L|L]; [exact L|exfalso].
    destruct (capf_sign_pos s (m d) B al (K 0 + (k - eps) * d) (K d) Hs (proj1 Ha) (proj2 Ha) ltac:(lra) HB ltac:(lra) Zd) as (_ & Q & _). specialize (Q L). rewrite CF in Q. lra. }
  apply Rabs_le. lra.
Qed.
(** At a solution the slope of the right-hand side is below the one of the left-hand side. *)
Lemma slope_below s m B al K g' : 1 <= s -> 0 <= al < 1 -> 0 <= B -> 0 < m -> s * K = m + B * Rpower (smin 10 K) al ->
  derivable_pt_lim (fun x => B * Rpower (smin 10 x) al) K g' -> 0 < K /\ 0 <= g' <= al * s /\ 0 < s - g'.
Proof.
  intros Hs Ha HB Hm E D.
  assert (Z : capf s m B al K = 0) by (unfold capf; lra).
  destruct (capf_sign_pos s m B al 0 K Hs (proj1 Ha) ltac:(lra) ltac:(lra) HB ltac:(lra) Z) as (_ & _ & PK).
  pose proof (smin_pos 10 ltac:(lra) K) as SP.
  assert (D' : derivable_pt_lim (fun x => B * Rpower (smin 10 x) al) K (B * (al * Rpower (smin 10 K) (al - 1) * dsmin 10 K))).
  { apply (derivable_pt_lim_scal (fun x => Rpower (smin 10 x) al) B K).
    apply (derivable_pt_lim_comp (smin 10) (fun y => Rpower y al) K); [apply smin_deriv; lra|apply derivable_pt_lim_power; exact SP]. }
  pose proof (uniqueness_limite _ _ _ _ D D') as ->.
  pose proof (smin_elastic 10 K ltac:(lra) PK) as EL. pose proof (dsmin_pos_range 10 ltac:(lra) K PK) as DP.
  set (P := Rpower (smin 10 K) al) in *. assert (PP : 0 < P) by apply exp_pos.
  assert (R1 : Rpower (smin 10 K) (al - 1) = P / smin 10 K).
  { unfold Rminus. rewrite Rpower_plus, Rpower_Ropp, Rpower_1 by exact SP. reflexivity. }
  rewrite R1. set (sm := smin 10 K) in *. set (ds := dsmin 10 K) in *.
  assert (X : K * (B * (al * (P / sm) * ds)) <= al * (B * P)).
  { replace (K * (B * (al * (P / sm) * ds))) with (al * (B * P) * (K * ds / sm)) by (field; lra).
    rewrite <- (Rmult_1_r (al * (B * P))) at 2. apply Rmult_le_compat_l; [apply Rmult_le_pos; [lra|apply Rmult_le_pos; lra]|].
    apply (Rmult_le_reg_r sm); [exact SP|]. unfold Rdiv. rewrite Rmult_assoc, Rinv_l, Rmult_1_r, Rmult_1_l by lra. lra. }
  set (gg := B * (al * (P / sm) * ds)) in *.
  assert (G0 : 0 <= gg).
  { unfold gg. apply Rmult_le_pos; [auto|]. apply Rmult_le_pos; [|lra]. apply Rmult_le_pos; [lra|]. apply Rmult_le_pos; [lra|left; apply Rinv_0_lt_compat; exact SP]. }
  assert (BP : B * P <= s * K) by lra.
  assert (Y : K * gg <= K * (al * s)) by nra.
  apply Rmult_le_reg_l in Y; [|exact PK]. repeat split; auto. nra.
Qed.
