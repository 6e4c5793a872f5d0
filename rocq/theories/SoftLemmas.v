(** C50, C51 *)
From Coq Require Import Lra Lia.
From Coquelicot Require Import Coquelicot.
From Verif Require Import ModelFacts SoftFacts ModelSpec.

Lemma scale_PI s : 0 < s -> 1 / (25 / s * PI) = s / (25 * PI).
Proof. intros. field. split; auto; lra. Qed.

Lemma C50_soft_switch_pf : forall v x y scale, 0 < scale ->
  0 < deno v (soft_switch x scale) < 1 /\
  (deno v x < deno v y -> deno v (soft_switch x scale) < deno v (soft_switch y scale)) /\
  (deno v x = 0 -> deno v (soft_switch x scale) = 1/2).
Proof.
  intros v x y s Hs. rewrite !deno_soft_switch. split; [apply sw_range; auto|]. split.
  - apply sw_incr; auto.
  - intros ->. apply sw_0; auto.
Qed.
Lemma C50_soft_min_pf : forall v x y scale, 0 < scale ->
  Rmax (deno v x) 0 < deno v (soft_min x scale) <= Rmax (deno v x) 0 + scale / (25 * PI) /\
  (deno v x < deno v y -> deno v (soft_min x scale) < deno v (soft_min y scale)) /\
  deno v (soft_min x scale) - deno v (soft_min (- x)%E scale) = deno v x /\
  (deno v x < deno v y -> deno v (soft_min y scale) - deno v (soft_min x scale) < deno v y - deno v x) /\
  (defd v x -> defd v (soft_min x scale)).
Proof.
  intros v x y s Hs. rewrite !deno_soft_min. cbn [deno].
  pose proof (smin_gap s Hs (deno v x)) as G. rewrite scale_PI in G by auto.
  split; [lra|]. split; [apply smin_incr; auto|]. split; [apply smin_reflect; auto|].
  split; [apply smin_lip; auto|]. apply defd_soft_min; auto.
Qed.
Lemma C50_soft_max_pf : forall v x y m scale, 0 < scale ->
  Rmin (deno v x) (deno v m) - scale / (25 * PI) <= deno v (soft_max x m scale)
    < Rmin (deno v x) (deno v m) /\
  (deno v x < deno v y -> deno v (soft_max x m scale) < deno v (soft_max y m scale)).
Proof.
  intros v x y m s Hs. rewrite !deno_soft_max.
  pose proof (smax_gap s Hs (deno v x) (deno v m)) as G. rewrite scale_PI in G by auto.
  split; [lra|]. apply smax_incr; auto.
Qed.

Definition soft_equality_holds (tfin : nat) (regs : list region) (v : point)
    (l r : nat -> region -> result expr) (eps : R) (abs : option R) (ign : nat -> region -> bool) : Prop :=
  forall name nc, In nc (to_pyomo (RegionalSoftEqC name l r eps abs ign)) -> con_holds tfin regs v (snd nc).

Lemma soft_eq_at tfin regs v l r eps abs ign t g a b :
  soft_equality_holds tfin regs v l r eps abs ign -> (t <= tfin)%nat -> In g regs -> ign t g = false ->
  l t g = Ok a -> r t g = Ok b ->
  sat v (Con a RLe (rhs_eps eps abs b true)) /\ sat v (Con a RGe (rhs_eps eps abs b false)).
Proof.
  intros H Ht Hg Hi El Er. specialize (H ""). rewrite holds_c_spec in H. cbn [holds_c] in H.
  specialize (H t g Ht Hg Hi). rewrite El, Er in H. exact H.
Qed.

Lemma C51_soft_equality_pf : forall tfin regs v l r eps abs ign t g a b,
  soft_equality_holds tfin regs v l r eps abs ign -> (t <= tfin)%nat -> In g regs -> ign t g = false ->
  l t g = Ok a -> r t g = Ok b ->
  Rabs (deno v a - deno v b) <= match abs with Some d => d | None => eps * deno v b end.
Proof.
  intros tfin regs v l r eps abs ign t g a b H Ht Hg Hi El Er.
  destruct (soft_eq_at _ _ _ _ _ _ _ _ _ _ _ _ H Ht Hg Hi El Er) as [(_ & _ & U) (_ & _ & L)].
  unfold rhs_eps in U, L. apply Rabs_le. destruct abs; cbn [deno] in U, L; lra.
Qed.
(** exactly that, and nothing more *)
Lemma C51_soft_equality_exact_pf : forall tfin regs v l r eps abs ign,
  (forall t g, (t <= tfin)%nat -> In g regs -> ign t g = false ->
     exists a b, l t g = Ok a /\ r t g = Ok b /\ defd v a /\ defd v b /\
       Rabs (deno v a - deno v b) <= match abs with Some d => d | None => eps * deno v b end) ->
  soft_equality_holds tfin regs v l r eps abs ign.
Proof.
  intros tfin regs v l r eps abs ign H name nc Hnc. revert nc Hnc. apply holds_c_spec. cbn [holds_c].
  intros t g Ht Hg Hi. destruct (H t g Ht Hg Hi) as (a & b & -> & -> & Da & Db & Hab).
  apply Rcomplements.Rabs_le_between in Hab.
  cbn [soft_con]. unfold rhs_eps. destruct abs; cbn [sat defd deno]; repeat split; auto; lra.
Qed.
(** "whatever the sign of the right-hand side" fails for the relative tolerance *)
Lemma C51_negative_rhs_infeasible_refuted_pf : forall tfin regs v l r eps ign t g a b,
  (t <= tfin)%nat -> In g regs -> ign t g = false -> l t g = Ok a -> r t g = Ok b ->
  deno v b < 0 -> 0 < eps -> ~ soft_equality_holds tfin regs v l r eps None ign.
Proof.
  intros tfin regs v l r eps ign t g a b Ht Hg Hi El Er Hb He' H.
  pose proof (C51_soft_equality_pf _ _ _ _ _ _ _ _ _ _ _ _ H Ht Hg Hi El Er) as K. cbn in K.
  pose proof (Rabs_pos (deno v a - deno v b)). nra.
Qed.
