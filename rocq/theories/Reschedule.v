(** C71: moving a little abatement from one step to another, before the year from which the policy limits the climate. *)
From Coq Require Import Reals List String Lra Lia.
From Verif Require Import ModelFacts SoftFacts ModelSpec PowFacts Equations Equations2 Build VarFacts EconLemmas BuildFacts BuildLemmas DefinedFacts
  SolveFacts ClimateSpec ClimateLemmas WelfareSpec WelfareLemmas MitigationLemmas PolicySpec PolicyLemmas Simulate SimFacts ExistSpec ExistFacts ExistLemmas ReallocateSpec Reallocate Exchange HotellingSpec.
Import ListNotations.
Open Scope R_scope.
Set Bullet Behavior "Strict Subproofs".

(** *** Small changes, for finitely many conditions *)
Lemma soon_nat n (P : nat -> R -> Prop) : (forall t, (t <= n)%nat -> soon (P t)) -> soon (fun d => forall t, (t <= n)%nat -> P t d).
Proof.
  induction n as [|n IH]; intros H.
  - eapply soon_imp; [apply (H 0%nat); lia|]. intros d _ X t Ht. replace t with 0%nat by lia. exact X.
  - eapply soon_imp; [apply soon_and; [apply IH; intros t Ht; apply H; lia|apply (H (S n)); lia]|].
    intros d _ [X Y] t Ht. destruct (Nat.eq_dec t (S n)) as [->|N]; [exact Y|apply X; lia].
Qed.
Lemma soon_list {A} (l : list A) (P : A -> R -> Prop) : (forall q, In q l -> soon (P q)) -> soon (fun d => forall q, In q l -> P q d).
Proof.
  induction l as [|a l IH]; intros H.
  - apply soon_true. intros d _ q [].
  - eapply soon_imp; [apply soon_and; [apply (H a); left; reflexivity|apply IH; intros q Hq; apply H; right; exact Hq]|].
    intros d _ [X Y] q [<-|Hq]; auto.
Qed.
Lemma soon_line_pos A B c : c <= A -> (B < 0 -> c < A) -> soon (fun d => c <= A + B * d).
Proof.
  intros H S. destruct (Rlt_le_dec B 0) as [N|N].
  - specialize (S N). eapply soon_imp; [apply (soon_lin (- A) (- B) (- c)); lra|]. intros d _ X. lra.
  - apply soon_true. intros d D. assert (0 <= B * d) by (apply Rmult_le_pos; auto). lra.
Qed.
Lemma soon_pos_cont f : continuity f -> 0 < f 0 -> soon (fun d => 0 <= f d).
Proof.
  intros C H. eapply soon_imp; [apply (soon_cont (fun d => - f d) 0)|].
  - apply continuity_pt_opp. apply C.
  - lra.
  - intros d _ X. cbv beta in X. lra.
Qed.
Lemma cont_thermal (A B C T K : R) (f g : R -> R) : continuity f -> continuity g -> continuity (fun d => A * f d + B * ((T + C * g d) * K)).
Proof. intros F G. reg; auto. Qed.
Lemma cont_glacier (A B C T K : R) (f g : R -> R) : continuity f -> continuity g -> continuity (fun d => f d + A * (B - f d) * (T + C * g d - K)).
Proof. intros F G. reg; auto. Qed.
Lemma cont_icesheet (A B C D T K : R) (f g : R -> R) : continuity f -> continuity g -> continuity (fun d => f d + A * (B * (T + C * g d) + D) * (1 - f d / K)).
Proof. intros F G. unfold Rdiv. reg; auto. Qed.

(** One if two steps are equal *)
Definition same (u t : nat) : R := if Nat.eqb t u then 1 else 0.
Definition at_pair (u : nat) (r : region) (t : nat) (q : region) : R := if Nat.eqb t u then (if String.eqb q r then 1 else 0) else 0.
Lemma at_pair_cases u r t q : (t = u /\ q = r /\ at_pair u r t q = 1) \/ (~ (t = u /\ q = r) /\ at_pair u r t q = 0).
Proof.
  unfold at_pair. destruct (Nat.eqb_spec t u) as [E|N]; [|right; tauto]. destruct (String.eqb_spec q r) as [E'|N']; [left|right]; tauto.
Qed.
Lemma at_pair_sum u r t l : NoDup l -> In r l -> Rsum (fun q => at_pair u r t q) l = same u t.
Proof.
  intros ND Hr. unfold at_pair, same. destruct (Nat.eqb t u).
  - rewrite Rsum_single by auto. destruct (in_dec string_dec r l); [reflexivity|contradiction].
  - apply Rsum_const0.
Qed.
Lemma same_cases u t : (t = u /\ same u t = 1) \/ (t <> u /\ same u t = 0).
Proof. unfold same. destruct (Nat.eqb_spec t u); [left|right]; auto. Qed.

Section Reschedule.
  Variables (p : pars) (v : point) (tm tl : nat) (rm rl : region).
  Hypotheses (F : feasible p v) (NR : numeric_ranges p) (SD : sound_data p) (U : usable_choices p) (SL : slr_logistic_ok p) (Al : 0 <= alpha p < 1).
  Hypotheses (DM : dmg_module p = nodamage) (UC : use_carbon_intensity p = false) (ER : effort_regime p = noregime) (NT : transfer p = notransfer) (ND : NoDup (regions p)).
  Hypotheses (MS : forall q, In q (regions p) -> 0 <= MAC_scaling p q) (MG : 0 <= MAC_gamma p) (ML : rel_mitigation_costs_min_level p <= 0).
  Hypothesis BE : forall t q, model_step p t -> In q (regions p) -> 0 <= baseline_emissions p t q.
  Hypotheses (NE : tm <> tl) (Tm : (1 <= tm <= tf p)%nat) (Tl : (1 <= tl <= tf p)%nat) (Ym : year p tm < 2100) (Yl : year p tl < 2100).
  Hypotheses (Hm : In rm (regions p)) (Hl : In rl (regions p)) (Em : 0 < baseline_emissions p tm rm) (El : 0 < baseline_emissions p tl rl).
  Hypotheses (Rm : can_abate_more p v tm rm) (Rl : can_abate_less p v tl rl).
  Hypotheses (Wm : world_can_emit_less p v tm) (Wl : world_can_emit_more p v tl) (CP : climate_positive p v).
  Notation ab := (relative_abatement v).
  Notation em := (regional_emissions v).
  Let HD : 0 < dt p. Proof. apply NR. Qed.
  (** Emissions fall by [d] in step [tm] and rise by [d] in step [tl]. *)
  Definition rise (t : nat) (q : region) : R := at_pair tl rl t q - at_pair tm rm t q.
  Definition moved (d : R) (t : nat) (q : region) : R :=
    match t with O => 0 | S _ => ab t q + d * (at_pair tm rm t q / baseline_emissions p tm rm - at_pair tl rl t q / baseline_emissions p tl rl) end.
  Definition held (u t : nat) : R := if Nat.ltb t u then 0 else if Nat.eqb t u then (if cum_trapz p then dt p / 2 else dt p) else dt p.
  Definition path (d : R) (t : nat) : R := cumulative_emissions v t + d * (held tl t - held tm t).
  Notation w d := (sim p (moved d) (path d) (fun _ => 0)).
  Hypothesis LRN : forall d t, 0 <= d -> model_step p t -> s_learn p (path d) t <= learning_factor v t.

  Lemma late t : 2100 <= year p t -> (tm < t)%nat /\ (tl < t)%nat.
  Proof.
    intros Y. unfold year in *. split; apply INR_lt.
    - apply Rmult_lt_reg_l with (dt p); [exact HD|lra].
    - apply Rmult_lt_reg_l with (dt p); [exact HD|lra].
  Qed.
  Lemma held_before u t : (t < u)%nat -> held u t = 0.
  Proof. intros L. unfold held. apply Nat.ltb_lt in L. rewrite L. reflexivity. Qed.
  Lemma held_after u t : (u < t)%nat -> held u t = dt p.
  Proof. intros L. unfold held. replace (Nat.ltb t u) with false by (symmetry; apply Nat.ltb_ge; lia). replace (Nat.eqb t u) with false by (symmetry; apply Nat.eqb_neq; lia). reflexivity. Qed.
  Lemma held_range u t : 0 <= held u t <= dt p.
  Proof. unfold held. destruct (Nat.ltb t u); [lra|]. destruct (Nat.eqb t u); [|lra]. destruct (cum_trapz p); lra. Qed.
  Lemma held_step u t : held u (S t) = held u t + (if cum_trapz p then dt p * (same u (S t) + same u t) / 2 else dt p * same u (S t)).
  Proof.
    unfold held, same. destruct (Nat.ltb_spec (S t) u), (Nat.ltb_spec t u), (Nat.eqb_spec (S t) u), (Nat.eqb_spec t u); try lia; destruct (cum_trapz p); lra.
  Qed.
  Lemma path_late d t : 2100 <= year p t -> path d t = cumulative_emissions v t.
  Proof. intros Y. destruct (late t Y) as [L1 L2]. unfold path. rewrite !held_after by auto. ring. Qed.
  Lemma rise_late t q : (tm < t)%nat -> (tl < t)%nat -> rise t q = 0.
  Proof. intros L1 L2. unfold rise. destruct (at_pair_cases tl rl t q) as [[-> _]|[_ ->]]; [lia|]. destruct (at_pair_cases tm rm t q) as [[-> _]|[_ ->]]; [lia|]. ring. Qed.
  Lemma w_em_v t q : (1 <= t <= tf p)%nat -> In q (regions p) -> em t q = (1 - ab t q) * baseline_emissions p t q.
  Proof.
    intros Ht Hq. unfold regional_emissions, relative_abatement. rewrite (q_abatement p v F t q ltac:(lia) Hq), (q_baseline p v F t q ltac:(lia) Hq), UC. reflexivity.
  Qed.
  Lemma w_em d t q : model_step p t -> In q (regions p) -> s_em p (moved d) (path d) t q = em t q + rise t q * d.
  Proof.
    unfold model_step. intros Ht Hq. unfold s_em, s_base. rewrite UC. destruct t as [|t].
    - unfold regional_emissions. rewrite (q_emissions0 p v F q Hq). unfold rise.
      destruct (at_pair_cases tl rl 0 q) as [[Q _]|[_ ->]]; [lia|]. destruct (at_pair_cases tm rm 0 q) as [[Q _]|[_ ->]]; [lia|]. ring.
    - rewrite w_em_v by (auto; lia). cbn [moved]. unfold rise.
      destruct (at_pair_cases tl rl (S t) q) as [(Q1 & Q2 & ->)|[_ ->]]; destruct (at_pair_cases tm rm (S t) q) as [(Q3 & Q4 & ->)|[_ ->]]; try (exfalso; lia).
      + rewrite <- Q1, <- Q2. rewrite <- Q1, <- Q2 in El. field. split; [lra|]. rewrite Q1, Q2 in *; lra.
      + rewrite <- Q3, <- Q4. rewrite <- Q3, <- Q4 in Em. field. split; lra.
      + field. split; lra.
  Qed.
  Lemma w_ge d t : model_step p t -> s_ge p (moved d) (path d) t = global_emissions v t + (same tl t - same tm t) * d.
  Proof.
    intros Ht. unfold s_ge, global_emissions. rewrite (q_global p v F t Ht).
    rewrite (Rsum_ext _ (fun q => rval v v_regional_emissions t q + (d * at_pair tl rl t q + - d * at_pair tm rm t q))).
    - rewrite !Rsum_plus, !Rsum_scal, !at_pair_sum by auto. ring.
    - intros q Hq. rewrite w_em by auto. unfold rise, regional_emissions. ring.
  Qed.
  Lemma w_path0 d : path d 0 = 0.
  Proof. unfold path. rewrite !held_before by lia. unfold cumulative_emissions. rewrite (q_cum0 p v F). ring. Qed.
  Lemma w_path_step d t : (S t <= tf p)%nat -> path d (S t) = path d t +
    (if cum_trapz p then dt p * (s_ge p (moved d) (path d) (S t) + s_ge p (moved d) (path d) t) / 2 else dt p * s_ge p (moved d) (path d) (S t)).
  Proof.
    intros Ht. rewrite !w_ge by (unfold model_step; lia). unfold path. rewrite !held_step. unfold cumulative_emissions, global_emissions. rewrite (q_cum p v F t Ht).
    destruct (cum_trapz p); lra.
  Qed.

  (** *** The shift is possible if it is small. *)
  Definition in_range_at (d : R) (t : nat) (q : region) : Prop := (1 <= t)%nat ->
    0 <= moved d t q <= 5/2 /\ learning_factor v t * MAC_scaling p q * MAC_gamma p * pypow (moved d t q) (MAC_beta p) <= 2 * MAC_gamma p.
  Definition small (d : R) : Prop := forall t, (t <= tf p)%nat ->
    (forall q, In q (regions p) -> in_range_at d t q /\ (forall l, regional_min_level p = Some l -> l <= em t q + rise t q * d) /\
       (forall i, inertia_regional p = Some i -> (S t <= tf p)%nat -> dt p * i * baseline_emissions p 0 q <= em (S t) q - em t q + (rise (S t) q - rise t q) * d)) /\
    (forall l, global_min_level p = Some l -> l <= global_emissions v t + (same tl t - same tm t) * d) /\
    (forall i, inertia_global p = Some i -> (S t <= tf p)%nat -> dt p * i * total p (baseline_emissions p 0) <=
       global_emissions v (S t) - global_emissions v t + ((same tl (S t) - same tm (S t)) - (same tl t - same tm t)) * d) /\
    0 <= cumulative_emissions v t + (held tl t - held tm t) * d /\
    0 <= s_th p (path d) t /\ 0 <= s_gs p (path d) t /\ 0 <= s_gi p (path d) t.
  Lemma path_0 t : path 0 t = cumulative_emissions v t.
  Proof. unfold path. ring. Qed.
  Lemma path_cont t : continuity (fun d => path d t).
  Proof. unfold path. reg. Qed.
  Lemma th_cont t : continuity (fun d => s_th p (path d) t).
  Proof. induction t as [|t IH]; cbn [s_th]; [reg|]. unfold s_temp. apply cont_thermal; [exact IH|apply path_cont]. Qed.
  Lemma gs_cont t : continuity (fun d => s_gs p (path d) t).
  Proof. induction t as [|t IH]; cbn [s_gs]; [reg|]. unfold s_temp. apply cont_glacier; [exact IH|apply path_cont]. Qed.
  Lemma gi_cont t : continuity (fun d => s_gi p (path d) t).
  Proof. induction t as [|t IH]; cbn [s_gi]; [reg|]. unfold s_temp. apply cont_icesheet; [exact IH|apply path_cont]. Qed.
  Lemma slr_path0 t : s_th p (path 0) t = s_th p (cumulative_emissions v) t /\ s_gs p (path 0) t = s_gs p (cumulative_emissions v) t /\ s_gi p (path 0) t = s_gi p (cumulative_emissions v) t.
  Proof.
    induction t as [|t (I1 & I2 & I3)]; [auto|]. cbn [s_th s_gs s_gi]. unfold s_temp. rewrite path_0, I1, I2, I3. auto.
  Qed.
  Lemma range_soon t q : (t <= tf p)%nat -> In q (regions p) -> soon (fun d => in_range_at d t q).
  Proof.
    intros Ht Hq. destruct t as [|t]; [apply soon_true; intros d _ Q; lia|].
    assert (M : model_step p (S t)) by (unfold model_step; lia).
    destruct (at_pair_cases tm rm (S t) q) as [(Q3 & Q4 & Q5)|[N1 Q1]].
    - assert (Q2 : at_pair tl rl (S t) q = 0) by (destruct (at_pair_cases tl rl (S t) q) as [[Q _]|[_ Q]]; [lia|exact Q]).
      subst q. eapply soon_imp; [apply (fits_more p v tm F NR Tm rm (/ baseline_emissions p tm rm) Hm Rm); [left; apply Rinv_0_lt_compat; exact Em|lra]|].
      intros d _ (X1 & X2 & _) _. unfold in_range_at. cbn [moved]. rewrite Q5, Q2, Q3.
      replace (ab tm rm + d * (1 / baseline_emissions p tm rm - 0 / baseline_emissions p tl rl)) with (ab tm rm + / baseline_emissions p tm rm * d) by (unfold Rdiv; ring). auto.
    - destruct (at_pair_cases tl rl (S t) q) as [(Q3 & Q4 & Q5)|[N2 Q2]].
      + subst q. eapply soon_imp; [apply (fits_less p v tl F NR Tl rl (/ baseline_emissions p tl rl) Hl Rl); [left; apply Rinv_0_lt_compat; exact El|lra|auto|exact MG]|].
        intros d _ (X1 & X2 & _) _. unfold in_range_at. cbn [moved]. rewrite Q5, Q1, Q3.
        replace (ab tl rl + d * (0 / baseline_emissions p tm rm - 1 / baseline_emissions p tl rl)) with (ab tl rl + - / baseline_emissions p tl rl * d) by (unfold Rdiv; ring). auto.
      + apply soon_true. intros d _ _. unfold in_range_at. cbn [moved]. rewrite Q1, Q2.
        replace (ab (S t) q + d * (0 / baseline_emissions p tm rm - 0 / baseline_emissions p tl rl)) with (ab (S t) q) by (unfold Rdiv; ring).
        destruct (q_bounds_r p v F (S t) q M Hq) as (B1 & B2 & _). split; [unfold relative_abatement; lra|].
        unfold learning_factor, relative_abatement. rewrite <- (q_carbonprice p v F (S t) q M Hq). apply B2.
  Qed.
  Lemma small_soon : soon small.
  Proof.
    apply soon_nat. intros t Ht. assert (M : model_step p t) by (unfold model_step; lia).
    apply soon_and; [|apply soon_and; [|apply soon_and; [|apply soon_and]]].
    - apply soon_list. intros q Hq. apply soon_and; [apply range_soon; auto|apply soon_and].
      + apply soon_option. intros l E. apply soon_line_pos.
        * apply (q_min_r p v F t q l); auto.
        * intros N. unfold rise in N. destruct (at_pair_cases tm rm t q) as [(-> & -> & _)|[_ Q]]; [apply Rm; exact E|].
          exfalso. rewrite Q in N. destruct (at_pair_cases tl rl t q) as [(_ & _ & Q')|[_ Q']]; rewrite Q' in N; lra.
      + apply soon_option. intros i E. apply soon_if; [apply le_dec|]. intros L. apply soon_line_pos.
        * pose proof (q_inertia_r p v F t q i L Hq E) as Q. unfold regional_emissions. lra.
        * intros N. unfold rise in N. destruct (at_pair_cases tm rm (S t) q) as [(Q1 & -> & _)|[_ Q]].
          -- rewrite Q1. apply Rm; auto.
          -- rewrite Q in N. destruct (at_pair_cases tl rl t q) as [(-> & -> & _)|[_ Q']]; [apply Rl; auto|].
             exfalso. rewrite Q' in N. destruct (at_pair_cases tl rl (S t) q) as [(_ & _ & Q3)|[_ Q3]]; destruct (at_pair_cases tm rm t q) as [(_ & _ & Q4)|[_ Q4]]; rewrite Q3, Q4 in N; lra.
    - apply soon_option. intros l E. apply soon_line_pos.
      + apply (q_min_g p v F t l); auto.
      + intros N. destruct (same_cases tm t) as [[-> _]|[_ Q]]; [apply Wm; exact E|].
        exfalso. rewrite Q in N. destruct (same_cases tl t) as [[_ Q']|[_ Q']]; rewrite Q' in N; lra.
    - apply soon_option. intros i E. apply soon_if; [apply le_dec|]. intros L. apply soon_line_pos.
      + pose proof (q_inertia_g p v F t i L E) as Q. unfold global_emissions, total. lra.
      + intros N. destruct (same_cases tm (S t)) as [[Q1 _]|[_ Q]].
        * rewrite Q1. apply Wm; auto.
        * rewrite Q in N. destruct (same_cases tl t) as [[-> _]|[_ Q']]; [apply Wl; auto|].
          exfalso. rewrite Q' in N. destruct (same_cases tl (S t)) as [[_ Q3]|[_ Q3]]; destruct (same_cases tm t) as [[_ Q4]|[_ Q4]]; rewrite Q3, Q4 in N; lra.
    - apply soon_line_pos.
      + apply (q_cum_nonneg p v F t M).
      + intros N. destruct t as [|t]; [rewrite !held_before in N by lia; lra|]. apply CP. lia.
    - destruct (slr_path0 t) as (P1 & P2 & P3). destruct (r_slr p v F t M) as (S1 & S2 & S3). rewrite S1 in P1. rewrite S2 in P2. rewrite S3 in P3.
      destruct t as [|t].
      + destruct (q_bounds p v F 0 M) as (B1 & B2 & B3 & _). apply soon_true. intros d _. cbn [s_th s_gs s_gi].
        destruct (q_slr0 p v F) as (E1 & _). rewrite E1 in B1. split; [exact B1|]. lra.
      + destruct (CP (S t) ltac:(lia)) as (_ & C1 & C2 & C3).
        apply soon_and; [|apply soon_and]; apply soon_pos_cont.
        * apply th_cont.
        * rewrite P1. exact C1.
        * apply gs_cont.
        * rewrite P2. exact C2.
        * apply gi_cont.
        * rewrite P3. exact C3.
  Qed.
  (** *** The plan with abatement moved *)
  Section Small.
    Variable d : R.
    Hypotheses (D0 : 0 <= d) (SM : small d).
    Lemma m_zero q : In q (regions p) -> moved d 0 q = 0.
    Proof. reflexivity. Qed.
    Lemma m_nonneg t q : model_step p t -> In q (regions p) -> 0 <= moved d t q.
    Proof. intros Ht Hq. destruct t as [|t]; [cbn; lra|]. apply (proj1 (SM (S t) Ht) q Hq). lia. Qed.
    Lemma m_learn_pos t : model_step p t -> 0 < s_learn p (path d) t.
    Proof.
      intros Ht. unfold s_learn. apply Rmult_lt_0_compat.
      - unfold s_lbd. rewrite pypow_pos by (apply smin_pos; lra). apply exp_pos.
      - unfold s_lot. apply Rdiv_lt_0_compat; [lra|]. apply pow_lt. destruct NR as (_ & _ & _ & _ & X). lra.
    Qed.
    Lemma m_power_nonneg t q y : model_step p t -> In q (regions p) -> 0 <= y -> 0 <= MAC_scaling p q * MAC_gamma p * pypow (moved d t q) (MAC_beta p + y).
    Proof.
      intros Ht Hq Hy. assert (HB : 0 < MAC_beta p) by apply NR. rewrite pypow_apow by (try lra; apply m_nonneg; auto).
      pose proof (apow_nonneg (moved d t q) (MAC_beta p + y)). repeat apply Rmult_le_pos; auto.
    Qed.
    Lemma m_limits : within_limits p (w d).
    Proof.
      intros t Ht. assert (HB : 0 < MAC_beta p) by apply NR. destruct (SM t Ht) as (SR & S1 & S2 & S3 & S4 & S5 & S6).
      unfold cumulative_emissions, temperature, global_emissions, thermal_SLR, glacier_SLR, icesheet_SLR. cbn [gval sim].
      split; [unfold path; lra|].
      split; [intros T X Y; unfold s_temp; rewrite (path_late d t Y); pose proof (q_target p v F t T Ht X Y) as Q; rewrite (q_temp p v F t Ht) in Q; exact Q|].
      split; [intros B X Y; rewrite (path_late d t Y); apply (q_budget p v F t B Ht X Y)|].
      split. { intros B X Z Y. rewrite w_ge by exact Ht. destruct (late t Y) as [L1 L2]. pose proof (q_net_zero p v F t B Ht X Z Y) as Q. unfold global_emissions.
        destruct (same_cases tl t) as [[Q1 _]|[_ ->]]; [lia|]. destruct (same_cases tm t) as [[Q1 _]|[_ ->]]; [lia|]. lra. }
      split; [intros l X; rewrite w_ge by exact Ht; apply S1; exact X|].
      split. { intros i s X ->. assert (Hs : model_step p s) by (unfold model_step in *; lia). rewrite !w_ge by assumption.
        pose proof (proj1 (proj2 (proj2 (SM s Hs))) i X Ht). lra. }
      do 3 (split; [assumption|]).
      intros r Hr. destruct (SR r Hr) as (RG & R1 & R2).
      unfold relative_abatement, carbonprice, sealevel_damages, regional_emissions, rel_mitigation_costs, damage_costs, GDP_gross. cbn [rval sim].
      pose proof (sim_gross p (moved d) (path d) NR SD t r Ht Hr) as YP.
      pose proof (m_nonneg t r Ht Hr) as A0. pose proof (m_learn_pos t Ht) as LP.
      split; [split; [exact A0|destruct t as [|t]; [cbn; lra|apply RG; lia]]|].
      split.
      { unfold s_price. pose proof (m_power_nonneg t r 0 Ht Hr ltac:(lra)) as PW. rewrite Rplus_0_r in PW.
        replace (s_learn p (path d) t * MAC_scaling p r * MAC_gamma p * pypow (moved d t r) (MAC_beta p)) with (s_learn p (path d) t * (MAC_scaling p r * MAC_gamma p * pypow (moved d t r) (MAC_beta p))) by ring.
        split; [apply Rmult_le_pos; lra|].
        destruct t as [|t].
        - cbn [moved] in *. rewrite (pypow_apow 0) by lra. rewrite apow_0 by lra. lra.
        - destruct (RG ltac:(lia)) as [_ PR]. apply Rle_trans with (2 := PR).
          replace (learning_factor v (S t) * MAC_scaling p r * MAC_gamma p * pypow (moved d (S t) r) (MAC_beta p)) with (learning_factor v (S t) * (MAC_scaling p r * MAC_gamma p * pypow (moved d (S t) r) (MAC_beta p))) by ring.
          apply Rmult_le_compat_r; [exact PW|apply LRN; auto]. }
      split; [intros Q; rewrite DM in Q; discriminate Q|].
      split; [intros l X; rewrite w_em by auto; apply R1; exact X|].
      split. { intros i s X ->. assert (Hs : model_step p s) by (unfold model_step in *; lia). rewrite !w_em by auto.
        pose proof (proj2 (proj2 (proj1 (SM s Hs) r Hr)) i X Ht). lra. }
      split. { intros s X -> Y. assert (Hs : model_step p s) by (unfold model_step in *; lia). rewrite !w_em by auto.
        destruct (late s ltac:(lra)) as [L1 L2]. rewrite !rise_late by lia. pose proof (q_non_incr p v F s r Ht Hr X Y) as Q. unfold regional_emissions. lra. }
      split; [|split; [|rewrite ER; repeat split; intros; discriminate]].
      - intros _. apply Rle_trans with (1 := ML). unfold Rdiv. apply Rmult_le_pos; [|apply Rlt_le, Rinv_0_lt_compat; exact YP].
        unfold s_M, s_base, s_unit. rewrite UC. apply Rmult_le_pos; [|apply BE; auto].
        pose proof (m_power_nonneg t r 1 Ht Hr ltac:(lra)) as PW.
        replace (s_learn p (path d) t * MAC_scaling p r * MAC_gamma p * pypow (moved d t r) (MAC_beta p + 1) / (MAC_beta p + 1))
          with (s_learn p (path d) t * / (MAC_beta p + 1) * (MAC_scaling p r * MAC_gamma p * pypow (moved d t r) (MAC_beta p + 1))) by (unfold Rdiv; ring).
        apply Rmult_le_pos; [|exact PW]. apply Rmult_le_pos; [lra|]. left. apply Rinv_0_lt_compat. lra.
      - intros TR. rewrite NT in TR. discriminate TR.
    Qed.
    Lemma m_feasible : feasible p (w d).
    Proof.
      apply sim_feasible; auto; try apply U.
      - intros X. rewrite X in UC. discriminate UC.
      - apply w_path0.
      - intros t Ht. apply (w_path_step d t Ht).
      - apply m_limits.
    Qed.
    (** What it costs: nowhere more than at the learning of the first plan. *)
    Lemma m_cost t q : (1 <= t <= tf p)%nat -> In q (regions p) ->
      mitigation_costs (w d) t q <= mac_scale p v t q * (apow (moved d t q) (MAC_beta p + 1) / (MAC_beta p + 1)) * baseline_emissions p t q.
    Proof.
      intros Ht Hq. assert (M : model_step p t) by (unfold model_step; lia). assert (HB : 0 < MAC_beta p) by apply NR.
      unfold mitigation_costs. cbn [rval sim]. unfold s_M, s_unit, s_base. rewrite UC.
      apply Rmult_le_compat_r; [apply BE; auto|]. unfold mac_scale. pose proof (m_power_nonneg t q 1 M Hq ltac:(lra)) as PW.
      rewrite <- pypow_apow by (try lra; apply m_nonneg; auto).
      replace (s_learn p (path d) t * MAC_scaling p q * MAC_gamma p * pypow (moved d t q) (MAC_beta p + 1) / (MAC_beta p + 1))
        with (s_learn p (path d) t * (MAC_scaling p q * MAC_gamma p * pypow (moved d t q) (MAC_beta p + 1) * / (MAC_beta p + 1))) by (unfold Rdiv; ring).
      replace (learning_factor v t * MAC_scaling p q * MAC_gamma p * (pypow (moved d t q) (MAC_beta p + 1) / (MAC_beta p + 1)))
        with (learning_factor v t * (MAC_scaling p q * MAC_gamma p * pypow (moved d t q) (MAC_beta p + 1) * / (MAC_beta p + 1))) by (unfold Rdiv; ring).
      apply Rmult_le_compat_r; [apply Rmult_le_pos; [exact PW|left; apply Rinv_0_lt_compat; lra]|apply LRN; auto].
    Qed.
    Lemma m_cost_other t q : (1 <= t <= tf p)%nat -> In q (regions p) -> ~ (t = tm /\ q = rm) -> ~ (t = tl /\ q = rl) ->
      mitigation_costs (w d) t q <= area_under_MAC v t q.
    Proof.
      intros Ht Hq N1 N2. apply Rle_trans with (1 := m_cost t q Ht Hq). right. rewrite (cost_v p v F NR UC t q) by (auto; unfold model_step; lia). unfold ac.
      destruct t as [|t]; [lia|]. cbn [moved].
      destruct (at_pair_cases tm rm (S t) q) as [[Q1 [Q2 _]]|[_ ->]]; [tauto|]. destruct (at_pair_cases tl rl (S t) q) as [[Q1 [Q2 _]]|[_ ->]]; [tauto|].
      replace (ab (S t) q + d * (0 / baseline_emissions p tm rm - 0 / baseline_emissions p tl rl)) with (ab (S t) q) by (unfold Rdiv; ring). reflexivity.
    Qed.
    Lemma m_cost_more : mitigation_costs (w d) tm rm <= cost_of p v tm rm (/ baseline_emissions p tm rm * d).
    Proof.
      apply Rle_trans with (1 := m_cost tm rm Tm Hm). right. unfold cost_of. do 4 f_equal. destruct tm as [|u] eqn:E; [lia|]. cbn [moved]. rewrite <- E in *.
      destruct (at_pair_cases tm rm tm rm) as [[_ [_ ->]]|[Q _]]; [|tauto]. destruct (at_pair_cases tl rl tm rm) as [[Q _]|[_ ->]]; [congruence|]. unfold Rdiv. ring.
    Qed.
    Lemma m_cost_less : mitigation_costs (w d) tl rl <= cost_of p v tl rl (- / baseline_emissions p tl rl * d).
    Proof.
      apply Rle_trans with (1 := m_cost tl rl Tl Hl). right. unfold cost_of. do 4 f_equal. destruct tl as [|u] eqn:E; [lia|]. cbn [moved]. rewrite <- E in *.
      destruct (at_pair_cases tl rl tl rl) as [[_ [_ ->]]|[Q _]]; [|tauto]. destruct (at_pair_cases tm rm tl rl) as [[Q _]|[_ ->]]; [congruence|]. unfold Rdiv. ring.
    Qed.
  End Small.
End Reschedule.
