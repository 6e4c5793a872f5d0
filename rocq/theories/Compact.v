(** C67: from every sequence of feasible plans with bounded net incomes a subsequence tends to a feasible plan. *)
From Coq Require Import Lra Lia.
From Coquelicot Require Import Coquelicot.
From Verif Require Import ModelFacts SoftFacts ModelSpec PowFacts Equations Equations2 Build VarFacts EconLemmas BuildFacts BuildLemmas DefinedFacts Limits LimitModel Subsequence.
Open Scope R_scope.
Set Bullet Behavior "Strict Subproofs".

Lemma conv_bounded (f : nat -> R) : ex_finite_lim_seq f -> bounded f.
Proof.
  intros [l H]. destruct (filterlim_bounded (K := R_AbsRing) (V := R_NormedModule) f) as [M B]; [exists l; exact H|].
  exists M. intros k. apply (B k).
Qed.
Lemma lim_conv u e : lim u e -> ex_finite_lim_seq (fun k => deno (u k) e).
Proof. intros H. eexists. exact H. Qed.
Lemma lim_bounded u e : lim u e -> bounded (fun k => deno (u k) e).
Proof. intros H. eapply conv_bounded, lim_conv, H. Qed.
Lemma bounded_mult f g : bounded f -> bounded g -> bounded (fun k => f k * g k).
Proof.
  intros [A HA] [B HB]. exists (A * B). intros k. rewrite Rabs_mult. apply Rmult_le_compat; auto using Rabs_pos.
Qed.

(** Numbers bounded below with a zero sum are bounded above. *)
Lemma zero_sum_upper f l b r : (forall s, In s l -> - b <= f s) -> 0 <= b -> Rsum f l = 0 -> In r l -> f r <= INR (List.length l) * b.
Proof.
  intros L B Z I. assert (G : forall l, (forall s, In s l -> - b <= f s) -> In r l -> f r <= Rsum f l + INR (List.length l) * b).
  { clear - B. induction l as [|s l IH]; intros L I; [destruct I|]. rewrite Rsum_cons. cbn [List.length]. rewrite S_INR.
    destruct I as [->|I].
    - assert (P : - (INR (List.length l) * b) <= Rsum f l).
      { assert (L' : forall s, In s l -> - b <= f s) by (intros; apply L; right; auto). clear - L'.
        induction l as [|s l IH]; cbn [List.length]; rewrite ?Rsum_nil, ?Rsum_cons; [cbn; lra|]. rewrite S_INR.
        pose proof (L' s (or_introl eq_refl)). specialize (IH (fun s H => L' s (or_intror H))). lra. }
      lra.
    - specialize (IH (fun s H => L s (or_intror H)) I). pose proof (L s (or_introl eq_refl)). lra. }
  specialize (G l L I). lra.
Qed.

Definition rt_list {A} (p : pars) (f : nat -> region -> A) : list A :=
  flat_map (fun t => map (f t) (regions p)) (seq 0 (S (tf p))).
Lemma in_rt {A} p (f : nat -> region -> A) a : In a (rt_list p f) <-> exists t r, (t <= tf p)%nat /\ In r (regions p) /\ a = f t r.
Proof.
  unfold rt_list. rewrite in_flat_map. split.
  - intros (t & T & I). apply in_map_iff in I as (r & <- & R). apply in_seq in T. exists t, r. split; [lia|auto].
  - intros (t & r & T & R & ->). exists t. split; [apply in_seq; lia|apply in_map; exact R].
Qed.

Lemma shared_dec p t : {shared_level p t} + {~ shared_level p t}.
Proof.
  unfold shared_level. destruct (effort_regime p); try (right; intros [H|[H _]]; discriminate).
  - left. left. reflexivity.
  - destruct (Rle_dec (year p t) 2100) as [H|H]; [left; right; auto|right; intros [X|[_ X]]; [discriminate|contradiction]].
Qed.

Lemma compact p u : numeric_ranges p -> sound_data p -> usable_choices p -> slr_logistic_ok p -> (forall k, feasible p (u k)) ->
  (forall t r, (t <= tf p)%nat -> In r (regions p) -> bounded (fun k => rval (u k) v_GDP_net t r)) ->
  exists phi w, increasing_idx phi /\ feasible p w /\ is_lim_seq (fun k => gval (u (phi k)) g_NPV (tf p)) (gval w g_NPV (tf p)).
Proof.
  intros NR SD U SL F BN.
  (* decisions and net incomes *)
  destruct (bw_list (rt_list p (fun t r k => rval (u k) v_relative_abatement t r) ++ rt_list p (fun t r k => rval (u k) v_GDP_net t r))) as (phi1 & I1 & C1).
  { intros f. rewrite in_app_iff, !in_rt. intros [(t & r & T & R & ->)|(t & r & T & R & ->)]; [|apply BN; auto].
    exists 3. intros k. destruct (q_bounds_r p (u k) (F k) t r T R) as [B _]. apply Rabs_le. lra. }
  set (u1 := fun k => u (phi1 k)).
  assert (F1 : forall k, feasible p (u1 k)) by (intros k; apply F).
  assert (CA1 : forall t r, (t <= tf p)%nat -> In r (regions p) -> ex_finite_lim_seq (fun k => rval (u1 k) v_relative_abatement t r)).
  { intros t r T R. apply (C1 (fun k => rval (u k) v_relative_abatement t r)). rewrite in_app_iff, !in_rt. left. exists t, r. auto. }
  assert (CN1 : forall t r, (t <= tf p)%nat -> In r (regions p) -> ex_finite_lim_seq (fun k => rval (u1 k) v_GDP_net t r)).
  { intros t r T R. apply (C1 (fun k => rval (u k) v_GDP_net t r)). rewrite in_app_iff, !in_rt. right. exists t, r. auto. }
  (* transfers *)
  assert (ST : exists phi2, increasing_idx phi2 /\ (transfer p = globaldamagepool -> forall t r, (t <= tf p)%nat -> In r (regions p) ->
             ex_finite_lim_seq (fun k => rval (u1 (phi2 k)) v_financial_transfer t r))).
  { assert (DT : transfer p = globaldamagepool \/ transfer p <> globaldamagepool) by (destruct (transfer p); [right; discriminate|left; reflexivity]).
    destruct DT as [E|E]; [|exists (fun k => k); split; [intros k; lia|intros X; contradiction]].
    destruct (bw_list (rt_list p (fun t r k => rval (u1 k) v_financial_transfer t r))) as (phi2 & I2 & C2).
    - intros f. rewrite in_rt. intros (t & r & T & R & ->).
      assert (BB : exists b, 0 <= b /\ forall s k, In s (regions p) -> - b <= rval (u1 k) v_financial_transfer t s).
      { assert (BS : forall l, incl l (regions p) -> exists b, 0 <= b /\ forall s k, In s l -> Rabs (rval (u1 k) v_damage_costs t s * rval (u1 k) v_GDP_gross t s) <= b).
        { induction l as [|s l IH]; intros IN; [exists 0; split; [lra|intros s k []]|].
          destruct IH as (b & B0 & B); [intros x X; apply IN; right; exact X|].
          assert (S : In s (regions p)) by (apply IN; left; reflexivity).
          destruct (bounded_mult _ _ (lim_bounded _ _ (l_d p u1 NR SD U SL F1 CA1 CN1 t s T S)) (lim_bounded _ _ (l_gross p u1 NR SD F1 CN1 t s T S))) as [m M].
          cbn [deno] in M. exists (Rmax m b). split; [eapply Rle_trans; [exact B0|apply Rmax_r]|].
          intros x k [<-|X]; [eapply Rle_trans; [apply M|apply Rmax_l]|eapply Rle_trans; [apply B, X|apply Rmax_r]]. }
        destruct (BS (regions p) (incl_refl _)) as (b & B0 & B). exists b. split; [exact B0|]. intros s k S.
        pose proof (q_tr_max p (u1 k) (F1 k) E t s T S) as Q. specialize (B s k S). apply Rcomplements.Rabs_le_between in B. lra. }
      destruct BB as (b & B0 & BB). exists (Rmax b (INR (List.length (regions p)) * b)). intros k. apply Rabs_le.
      pose proof (Rmax_l b (INR (List.length (regions p)) * b)). pose proof (Rmax_r b (INR (List.length (regions p)) * b)).
      pose proof (BB r k R) as L. split; [lra|].
      destruct t as [|t]; [rewrite (q_tr_first p (u1 k) (F1 k) E r R); lra|].
      pose proof (zero_sum_upper _ _ b r (fun s S => BB s k S) B0 (q_tr_zero p (u1 k) (F1 k) E (S t) (conj (Nat.lt_0_succ t) T)) R). lra.
    - exists phi2. split; [exact I2|]. intros _ t r T R. apply (C2 (fun k => rval (u1 k) v_financial_transfer t r)). rewrite in_rt. exists t, r. auto. }
  destruct ST as (phi2 & I2 & CT2).
  set (u2 := fun k => u1 (phi2 k)).
  assert (F2 : forall k, feasible p (u2 k)) by (intros k; apply F1).
  assert (CA2 : forall t r, (t <= tf p)%nat -> In r (regions p) -> ex_finite_lim_seq (fun k => rval (u2 k) v_relative_abatement t r)).
  { intros t r T R. apply (lim_subseq (fun k => rval (u1 k) v_relative_abatement t r)); auto. }
  assert (CN2 : forall t r, (t <= tf p)%nat -> In r (regions p) -> ex_finite_lim_seq (fun k => rval (u2 k) v_GDP_net t r)).
  { intros t r T R. apply (lim_subseq (fun k => rval (u1 k) v_GDP_net t r)); auto. }
  (* the common level *)
  destruct (bw_list (map (fun t k => if shared_dec p t then gval (u2 k) g_effort_sharing_common_level t else 0) (seq 0 (S (tf p))))) as (phi3 & I3 & C3).
  { intros f I. apply in_map_iff in I as (t & <- & T). apply in_seq in T. assert (T' : (t <= tf p)%nat) by lia.
    destruct (shared_dec p t) as [SH|_]; [|exists 0; intros k; rewrite Rabs_R0; lra].
    assert (R : exists r, In r (regions p)) by (pose proof (proj1 SD) as NE; destruct (regions p) as [|r l]; [contradiction|exists r; left; reflexivity]). destruct R as [r R].
    assert (BX : bounded (fun k => rval (u2 k) v_rel_mitigation_costs t r) /\ bounded (fun k => rval (u2 k) v_damage_costs t r) /\ bounded (fun k => deno (u2 k) (rel_financial_transfer p t r))).
    { split; [apply (lim_bounded _ _ (l_relmit p u2 NR SD U SL F2 CA2 CN2 CT2 t r T' R))|]. split; [apply (lim_bounded _ _ (l_d p u2 NR SD U SL F2 CA2 CN2 t r T' R))|].
      assert (DT : transfer p = globaldamagepool \/ transfer p = notransfer) by (destruct (transfer p); auto). unfold rel_financial_transfer. destruct DT as [E|E]; rewrite E.
      - apply (lim_bounded _ _ (l_reltr p u2 NR SD F2 CA2 CN2 CT2 t r E T' R)).
      - exists 0. intros k. cbn [deno]. rewrite Rabs_R0. lra. }
    destruct BX as ([m1 M1] & [m2 M2] & [m3 M3]). exists (2 * (m1 + m2 + m3)). intros k.
    specialize (M1 k). specialize (M2 k). specialize (M3 k).
    pose proof (Rabs_pos (rval (u2 k) v_damage_costs t r)). pose proof (Rabs_pos (deno (u2 k) (rel_financial_transfer p t r))). pose proof (Rabs_pos (rval (u2 k) v_rel_mitigation_costs t r)).
    assert (P : forall x y m, Rabs x <= m -> x <= (1 + 1 * (5/1000)) * y -> x >= (1 + -1 * (5/1000)) * y -> Rabs y <= 2 * m).
    { intros x y m X A B. apply Rcomplements.Rabs_le_between in X. apply Rabs_le. lra. }
    destruct SH as [E|[E Y]].
    - destruct (q_eff_mitigation p (u2 k) (F2 k) t r E T' R) as [A B]. pose proof (P _ _ m1 M1 A B). lra.
    - destruct (q_eff_total p (u2 k) (F2 k) t r E T' R Y) as [A B]. apply (P _ _ (m1 + m2 + m3)) in A; [exact A| |exact B].
      eapply Rle_trans; [apply Rabs_triang|]. eapply Rle_trans; [apply Rplus_le_compat_r, Rabs_triang|]. lra. }
  set (u3 := fun k => u2 (phi3 k)).
  assert (F3 : forall k, feasible p (u3 k)) by (intros k; apply F2).
  assert (CA3 : forall t r, (t <= tf p)%nat -> In r (regions p) -> ex_finite_lim_seq (fun k => rval (u3 k) v_relative_abatement t r)).
  { intros t r T R. apply (lim_subseq (fun k => rval (u2 k) v_relative_abatement t r)); auto. }
  assert (CN3 : forall t r, (t <= tf p)%nat -> In r (regions p) -> ex_finite_lim_seq (fun k => rval (u3 k) v_GDP_net t r)).
  { intros t r T R. apply (lim_subseq (fun k => rval (u2 k) v_GDP_net t r)); auto. }
  assert (CT3 : transfer p = globaldamagepool -> forall t r, (t <= tf p)%nat -> In r (regions p) -> ex_finite_lim_seq (fun k => rval (u3 k) v_financial_transfer t r)).
  { intros E t r T R. apply (lim_subseq (fun k => rval (u2 k) v_financial_transfer t r)); [exact I3|apply CT2; auto]. }
  assert (CL3 : forall t, (t <= tf p)%nat -> shared_level p t -> ex_finite_lim_seq (fun k => gval (u3 k) g_effort_sharing_common_level t)).
  { intros t T S. specialize (C3 (fun k => if shared_dec p t then gval (u2 k) g_effort_sharing_common_level t else 0)).
    cbn beta in C3. destruct (shared_dec p t) as [_|N]; [|contradiction]. apply C3.
    apply in_map_iff. exists t. destruct (shared_dec p t) as [_|N]; [|contradiction]. split; [reflexivity|apply in_seq; lia]. }
  exists (fun k => phi1 (phi2 (phi3 k))), (limit_point u3). split; [|split].
  - intros k. apply (idx_mono phi1 I1), (idx_mono phi2 I2), I3.
  - exact (limit_feasible p u3 NR SD U SL F3 CA3 CN3 CT3 CL3).
  - exact (l_NPV p u3 NR SD U SL F3 CA3 CN3 CT3 (tf p) (le_n _)).
Qed.
