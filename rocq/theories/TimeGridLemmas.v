(** C11, C12, C13. *)
From Verif Require Import PyBase TimeGrid.
Import ListNotations.
Open Scope R_scope.

Lemma ceil_spec x : x <= IZR (ceil x) < x + 1.
Proof. unfold ceil. rewrite minus_IZR. destruct (archimed (- x)). lra. Qed.
Lemma ceil_unique x n : x <= IZR n < x + 1 -> ceil x = n.
Proof.
  intros H. pose proof (ceil_spec x) as C. apply Z.le_antisymm.
  - apply Z.lt_succ_r, lt_IZR. unfold Z.succ. rewrite plus_IZR. lra.
  - apply Z.lt_succ_r, lt_IZR. unfold Z.succ. rewrite plus_IZR. lra.
Qed.
Lemma INR_to_nat z : (0 <= z)%Z -> INR (Z.to_nat z) = IZR z.
Proof. intros H. rewrite INR_IZR_INZ, Z2Nat.id; auto. Qed.
Lemma div_bound a b d : 0 < d -> a <= b / d <-> a * d <= b.
Proof.
  intros D. split; intros H.
  - apply Rmult_le_compat_r with (r := d) in H; [|lra]. replace (b / d * d) with b in H by (field; lra). exact H.
  - apply Rmult_le_reg_r with d; [exact D|]. replace (b / d * d) with b by (field; lra). exact H.
Qed.
Lemma div_bound' a b d : 0 < d -> a < b / d <-> a * d < b.
Proof.
  intros D. split; intros H.
  - apply Rmult_lt_compat_r with (r := d) in H; [|lra]. replace (b / d * d) with b in H by (field; lra). exact H.
  - apply Rmult_lt_reg_r with d; [exact D|]. replace (b / d * d) with b by (field; lra). exact H.
Qed.
Lemma div_le a b d : 0 < d -> b / d <= a <-> b <= a * d.
Proof.
  intros D. split; intros H.
  - apply Rmult_le_compat_r with (r := d) in H; [|lra]. replace (b / d * d) with b in H by (field; lra). exact H.
  - apply Rmult_le_reg_r with d; [exact D|]. replace (b / d * d) with b by (field; lra). exact H.
Qed.

(** *** C11 *)
(** The number of steps, when the horizon is not empty. *)
Lemma C11_grid_covers_horizon_pf : forall start stop dt, 0 < dt -> start <= stop ->
  exists tf : nat,
    model_steps start stop dt = seq 0 (S tf) /\ num_years start stop dt = (Z.of_nat tf + 1)%Z /\
    year_at start dt 0 = start /\
    stop <= year_at start dt tf < stop + dt /\
    (forall t, (t < tf)%nat -> year_at start dt t < stop) /\
    (forall t, year_at start dt (S t) - year_at start dt t = dt).
Proof.
  intros a b d D H. set (z := ceil ((b - a) / d)). pose proof (ceil_spec ((b - a) / d)) as [C1 C2]. fold z in C1, C2.
  assert (Q : 0 <= (b - a) / d) by (apply div_bound; lra).
  assert (Z0 : (0 <= z)%Z) by (apply le_IZR; lra).
  exists (Z.to_nat z). unfold model_steps, num_years. fold z.
  assert (I : INR (Z.to_nat z) = IZR z) by (apply INR_to_nat, Z0).
  apply div_le in C1; [|exact D]. assert (C2' : IZR z - 1 < (b - a) / d) by lra. apply div_bound' in C2'; [|exact D].
  split; [f_equal; lia|]. split; [rewrite Z2Nat.id; auto|].
  split; [unfold year_at; cbn; ring|]. split; [unfold year_at; rewrite I; lra|]. split.
  - intros t Ht. unfold year_at. apply le_INR in Ht. rewrite S_INR, I in Ht. nra.
  - intros t. unfold year_at. rewrite S_INR. ring.
Qed.
(** End before start is accepted by the configuration; the horizon is then empty, or the single step
    [start] when the end year is less than one step earlier. *)
Lemma C11_end_before_start_pf : forall start stop dt, 0 < dt -> stop < start ->
  (dt <= start - stop -> model_steps start stop dt = []) /\
  (start - stop < dt -> model_steps start stop dt = [0%nat]).
Proof.
  intros a b d D H. unfold model_steps, num_years. pose proof (ceil_spec ((b - a) / d)) as [C1 C2]. split; intros K.
  - assert (Q : (b - a) / d <= -1) by (apply div_le; lra).
    assert (Z1 : (ceil ((b - a) / d) < 0)%Z) by (apply lt_IZR; lra).
    replace (Z.to_nat (ceil ((b - a) / d) + 1)) with 0%nat by lia. reflexivity.
  - assert (Q : -1 < (b - a) / d) by (apply div_bound'; lra). assert (Q' : (b - a) / d <= 0) by (apply div_le; lra).
    rewrite (ceil_unique ((b - a) / d) 0) by (cbn; lra). reflexivity.
Qed.
(** The step of the year 2100: the last one not after 2100. *)
Lemma C11_year2100_pf : forall start dt, 0 < dt -> start <= 2100 ->
  exists n : nat, year2100 start dt = Z.of_nat n /\ year_at start dt n <= 2100 < year_at start dt (S n).
Proof.
  intros a d D H. unfold year2100, trunc. assert (Q : 0 <= (2100 - a) / d) by (apply div_bound; lra).
  destruct (Rle_dec 0 ((2100 - a) / d)) as [_|N]; [|lra]. destruct (archimed ((2100 - a) / d)) as [A B].
  assert (Z0 : (0 < up ((2100 - a) / d))%Z) by (apply lt_IZR; lra).
  exists (Z.to_nat (up ((2100 - a) / d) - 1)). split; [rewrite Z2Nat.id; lia|]. unfold year_at. rewrite S_INR, INR_to_nat by lia.
  rewrite minus_IZR. set (u := IZR (up ((2100 - a) / d))) in *.
  assert (B' : u - 1 <= (2100 - a) / d) by lra. apply div_bound in B'; [|exact D].
  assert (A' : (2100 - a) / d < u) by lra. apply Rmult_lt_compat_r with (r := d) in A'; [|exact D].
  replace ((2100 - a) / d * d) with (2100 - a) in A' by (field; lra). lra.
Qed.

(** *** C12 *)
Definition increasing (l : list R) : Prop := forall i j, (i < j < List.length l)%nat -> nth i l 0 < nth j l 0.
Lemma increasing_tl x l : increasing (x :: l) -> increasing l.
Proof. intros H i j Hij. apply (H (S i) (S j)). cbn. lia. Qed.
Lemma interp_from_node : forall l x0 y0 i, increasing (x0 :: map fst l) -> (i <= List.length l)%nat ->
  interp_from (nth i (x0 :: map fst l) 0) x0 y0 l = nth i (y0 :: map snd l) 0.
Proof.
  induction l as [|[x1 y1] l IH]; intros x0 y0 i H Hi.
  - cbn in Hi. assert (i = 0)%nat as -> by lia. reflexivity.
  - cbn [interp_from map fst snd]. destruct (Rlt_dec _ x1) as [L|L].
    + destruct i as [|i]; [cbn; assert (x0 < x1) by (apply (H 0 1)%nat; cbn; lia); field; lra|].
      exfalso. destruct i as [|i]; [cbn in L; lra|].
      assert (x1 < nth (S (S i)) (x0 :: x1 :: map fst l) 0) by (apply (H 1 (S (S i)))%nat; cbn; rewrite map_length; cbn in Hi; lia).
      cbn [map fst] in L. lra.
    + destruct i as [|i]; [exfalso; apply L; cbn; apply (H 0 1)%nat; cbn; lia|].
      cbn [nth]. apply (IH x1 y1 i); [apply (increasing_tl x0), H|cbn in Hi; lia].
Qed.
(** At the i-th node, linear interpolation returns the i-th value. *)
Lemma C12_interpolation_exact_at_nodes_pf : forall xs ys i, increasing xs -> List.length ys = List.length xs ->
  (i < List.length xs)%nat -> np_interp (nth i xs 0) xs ys = Ok (nth i ys 0).
Proof.
  intros xs ys i H L Hi. unfold np_interp.
  destruct xs as [|x xs]; [cbn in Hi; lia|]. destruct ys as [|y ys]; [discriminate L|]. cbn [combine].
  assert (E1 : map fst (combine xs ys) = xs).
  { cbn in L. injection L as L. revert L. clear. revert ys. induction xs; intros [|b ys] L; try discriminate; [reflexivity|]. cbn. f_equal. auto. }
  assert (E2 : map snd (combine xs ys) = ys).
  { cbn in L. injection L as L. revert L. clear. revert ys. induction xs; intros [|b ys] L; try discriminate; [reflexivity|]. cbn. f_equal. auto. }
  destruct (Rlt_dec _ x) as [B|B].
  - exfalso. destruct i; [cbn in B; lra|]. assert (x < nth (S i) (x :: xs) 0) by (apply (H 0 (S i))%nat; lia). lra.
  - pose proof (interp_from_node (combine xs ys) x y i) as K. rewrite E1, E2 in K. rewrite K; auto.
    cbn in Hi. cbn in L. rewrite combine_length. lia.
Qed.
Lemma nth_arange a b d i : (i < List.length (arange a b d))%nat -> nth i (arange a b d) 0 = year_at a d i.
Proof.
  unfold arange. rewrite map_length, seq_length. intros H.
  rewrite nth_indep with (d' := year_at a d 0) by (rewrite map_length, seq_length; exact H).
  rewrite map_nth, seq_nth; [reflexivity|exact H].
Qed.
Lemma arange_increasing a b d : 0 < d -> increasing (arange a b d).
Proof.
  intros D i j [H1 H2]. rewrite !nth_arange by lia. unfold year_at. apply lt_INR in H1. nra.
Qed.
Lemma arange_length a b d : 0 < d -> a <= b -> INR (List.length (arange a b d)) * d < b - a + d /\ b - a <= INR (List.length (arange a b d)) * d.
Proof.
  intros D H. unfold arange. rewrite map_length, seq_length. pose proof (ceil_spec ((b - a) / d)) as [C1 C2].
  assert (0 <= (b - a) / d) by (apply div_bound; lra). rewrite INR_to_nat by (apply le_IZR; lra).
  apply div_le in C1; [|exact D]. assert (C3 : IZR (ceil ((b - a) / d)) - 1 < (b - a) / d) by lra. apply div_bound' in C3; [|exact D]. lra.
Qed.
(** Every model step's year is a node of the data grid, so the data store's own value for that year is
    what the model gets, whatever the values at other years. *)
Lemma C12_model_years_are_data_years_pf : forall start stop dt t values, 0 < dt <= 20 -> start <= stop ->
  In t (model_steps start stop dt) -> List.length values = List.length (data_years start stop dt) ->
  nth t (data_years start stop dt) 0 = year_at start dt t /\
  np_interp (year_at start dt t) (data_years start stop dt) values = Ok (nth t values 0).
Proof.
  intros a b d t vs D H Ht L.
  assert (N : (t < List.length (data_years a b d))%nat).
  { destruct (C11_grid_covers_horizon_pf a b d (proj1 D) H) as (tf & E & _ & _ & B & _). rewrite E in Ht. apply in_seq in Ht.
    destruct (arange_length a (b + 50) d) as [_ B2]; [lra|lra|]. fold (data_years a b d) in B2.
    apply INR_lt. assert (INR t <= INR tf) by (apply le_INR; lia). unfold year_at in B.
    apply Rmult_lt_reg_r with d; [lra|]. nra. }
  pose proof (nth_arange a (b + 50) d t N) as E. split; [exact E|]. rewrite <- E.
  apply C12_interpolation_exact_at_nodes_pf; auto. apply arange_increasing; lra.
Qed.
(** The first and last year for which data are requested. *)
Lemma C12_requested_years_pf : forall start stop dt, 0 < dt <= 20 -> start <= stop ->
  nth 0 (data_years start stop dt) 0 = start /\
  exists last, last = nth (List.length (data_years start stop dt) - 1) (data_years start stop dt) 0 /\
    stop + 50 - dt <= last < stop + 50 /\ Forall (fun y => start <= y <= last) (data_years start stop dt).
Proof.
  intros a b d D H. destruct (arange_length a (b + 50) d) as [B1 B2]; [lra|lra|]. fold (data_years a b d) in B1, B2.
  set (n := List.length (data_years a b d)) in *.
  assert (N : (0 < n)%nat) by (destruct n; [cbn in B2; nra|lia]).
  assert (NT : forall i, (i < n)%nat -> nth i (data_years a b d) 0 = year_at a d i) by (intros i Hi; apply nth_arange; exact Hi).
  rewrite !NT by lia. split; [unfold year_at; cbn; ring|].
  eexists. split; [reflexivity|].
  unfold year_at. rewrite minus_INR by lia. cbn [INR]. split; [nra|].
  apply Forall_forall. intros y Hy. apply (In_nth _ _ 0) in Hy as (i & Hi & <-). fold n in Hi. rewrite NT by exact Hi.
  unfold year_at. pose proof (pos_INR i).
  assert (Q : INR i <= INR (n - 1)) by (apply le_INR; lia). rewrite minus_INR in Q by lia. cbn [INR] in Q. split; nra.
Qed.

(** *** C13 *)
Lemma rev_two {A} (l : list A) : (2 <= List.length l)%nat -> exists m x0 x1, l = (m ++ [x0; x1])%list.
Proof.
  intros H. destruct (rev l) as [|x1 [|x0 r]] eqn:E.
  - apply (f_equal (@List.length A)) in E. rewrite rev_length in E. cbn in E. lia.
  - apply (f_equal (@List.length A)) in E. rewrite rev_length in E. cbn in E. lia.
  - exists (rev r), x0, x1. rewrite <- (rev_involutive l), E. cbn. rewrite <- app_assoc. reflexivity.
Qed.
Lemma extrapolate_eq mv v0 v1 my y0 y1 extra :
  extrapolate (mv ++ [v0; v1]) (my ++ [y0; y1]) extra
  = Ok ((mv ++ [v0; v1]) ++ extrapolate_from ((v1 - v0) / (y1 - y0)) y1 v1 extra)%list.
Proof. unfold extrapolate. rewrite !rev_app_distr. reflexivity. Qed.
Lemma extrapolate_from_length c t v l : List.length (extrapolate_from c t v l) = List.length l.
Proof. revert t v. induction l; intros; cbn; auto. Qed.
(** Data inside the file are unchanged, one value is added per extra year. *)
Lemma C13_data_unchanged_pf : forall values years extra out, extrapolate values years extra = Ok out ->
  firstn (List.length values) out = values /\ List.length out = (List.length values + List.length extra)%nat.
Proof.
  intros vs ys ex out H. unfold extrapolate in H. destruct (rev vs) as [|v1 [|v0 r]]; try discriminate.
  destruct (rev ys) as [|y1 [|y0 r']]; try discriminate. injection H as <-.
  rewrite firstn_app, Nat.sub_diag, firstn_all, firstn_O, app_nil_r, app_length, extrapolate_from_length. auto.
Qed.
(** It fails only for series with fewer than two values. *)
Lemma C13_total_pf : forall values years extra, (2 <= List.length values)%nat -> List.length years = List.length values ->
  exists out, extrapolate values years extra = Ok out.
Proof.
  intros vs ys ex H L. destruct (rev_two vs H) as (m & v0 & v1 & ->). assert (H' : (2 <= List.length ys)%nat) by lia.
  destruct (rev_two ys H') as (m' & y0 & y1 & ->). rewrite extrapolate_eq. eauto.
Qed.
Lemma growth_sign c t : (0 <= c -> 0 <= growth c t) /\ (c <= 0 -> growth c t <= 0).
Proof.
  unfold growth. destruct (Rlt_dec 0 c).
  - split; [|lra]. intros _. apply Rmax_l.
  - split; [|intros _; apply Rmin_l]. intros H. assert (c = 0) as -> by lra. apply Rmin_glb; lra.
Qed.
Lemma growth_zero c t : 2150 <= t -> growth c t = 0.
Proof.
  intros H. unfold growth. destruct (Rlt_dec 0 c).
  - apply Rmax_left. replace (c * (t - 2100) / 50) with (c * ((t - 2100) / 50)) by (field). assert (1 <= (t - 2100) / 50) by lra. nra.
  - apply Rmin_left. replace (c * (t - 2100) / 50) with (c * ((t - 2100) / 50)) by (field). assert (1 <= (t - 2100) / 50) by lra. nra.
Qed.
Lemma growth_abs c t : 2100 <= t -> Rabs (growth c t) <= Rabs c.
Proof.
  intros H. unfold growth. replace (c - c * (t - 2100) / 50) with (c * (1 - (t - 2100) / 50)) by field. set (k := (t - 2100) / 50).
  assert (0 <= k) by (unfold k; lra). destruct (Rlt_dec 0 c).
  - rewrite (Rabs_pos_eq c) by lra. rewrite Rabs_pos_eq by apply Rmax_l. apply Rmax_lub; [lra|]. nra.
  - assert (c <= 0) by lra. rewrite (Rabs_left1 c) by lra. rewrite Rabs_left1 by apply Rmin_l. apply Ropp_le_contravar. apply Rmin_glb; [lra|]. nra.
Qed.
(** one step of the loop *)
Lemma extrapolate_step l : forall c t v i, (i < List.length l)%nat ->
  nth i (extrapolate_from c t v l) 0 = nth i (v :: extrapolate_from c t v l) 0
    + growth c (nth i (t :: l) 0) * (nth i l 0 - nth i (t :: l) 0).
Proof.
  induction l as [|x l IH]; intros c t v i H; [cbn in H; lia|]. destruct i as [|i]; [reflexivity|].
  cbn [extrapolate_from nth]. cbn in H. rewrite IH by lia. reflexivity.
Qed.
Section Tail.
  Variables (values years extra out : list R).
  Let n := List.length values.
  Let t i := nth i (years ++ extra)%list 0.
  Let x i := nth i out 0.
  Lemma tail_step : (2 <= n)%nat -> List.length years = n -> extrapolate values years extra = Ok out ->
    let rate := (x (n - 1)%nat - x (n - 2)%nat) / (t (n - 1)%nat - t (n - 2)%nat) in
    forall i, (n <= i < n + List.length extra)%nat -> x i = x (i - 1)%nat + growth rate (t (i - 1)%nat) * (t i - t (i - 1)%nat).
  Proof.
    intros N L E rate i Hi. destruct (rev_two values N) as (mv & v0 & v1 & Ev). assert (N' : (2 <= List.length years)%nat) by (rewrite L; exact N).
    destruct (rev_two years N') as (my & y0 & y1 & Ey).
    assert (Lv : List.length mv = (n - 2)%nat) by (unfold n; rewrite Ev, app_length; cbn; lia).
    assert (Ly : List.length my = (n - 2)%nat) by (rewrite <- L, Ey, app_length; cbn; lia).
    rewrite Ev, Ey, extrapolate_eq in E. injection E as E.
    assert (T1 : t (n - 1)%nat = y1).
    { unfold t. rewrite Ey, <- app_assoc, app_nth2 by lia. rewrite Ly. replace (n - 1 - (n - 2))%nat with 1%nat by lia. reflexivity. }
    assert (T0 : t (n - 2)%nat = y0).
    { unfold t. rewrite Ey, <- app_assoc, app_nth2 by lia. rewrite Ly, Nat.sub_diag. reflexivity. }
    assert (X1 : x (n - 1)%nat = v1).
    { unfold x. rewrite <- E, <- app_assoc, app_nth2 by lia. rewrite Lv. replace (n - 1 - (n - 2))%nat with 1%nat by lia. reflexivity. }
    assert (X0 : x (n - 2)%nat = v0).
    { unfold x. rewrite <- E, <- app_assoc, app_nth2 by lia. rewrite Lv, Nat.sub_diag. reflexivity. }
    unfold rate. rewrite T1, T0, X1, X0. set (c := (v1 - v0) / (y1 - y0)) in *.
    assert (TT : forall j, t (n - 1 + j)%nat = nth j (y1 :: extra) 0).
    { intros j. destruct j as [|j]; [rewrite Nat.add_0_r; exact T1|]. unfold t. rewrite app_nth2 by lia. rewrite L. replace (n - 1 + S j - n)%nat with j by lia. reflexivity. }
    assert (XX : forall j, x (n - 1 + j)%nat = nth j (v1 :: extrapolate_from c y1 v1 extra) 0).
    { intros j. destruct j as [|j]; [rewrite Nat.add_0_r; exact X1|]. unfold x. rewrite <- E. rewrite app_nth2 by (rewrite app_length, Lv; cbn; lia).
      rewrite app_length, Lv. cbn [List.length]. replace (n - 1 + S j - (n - 2 + 2))%nat with j by lia. reflexivity. }
    set (j := (i - n)%nat). assert (J : (j < List.length extra)%nat) by lia.
    replace i with (n - 1 + S j)%nat by lia. replace (n - 1 + S j - 1)%nat with (n - 1 + j)%nat by lia. rewrite !XX, !TT.
    change (nth (S j) (v1 :: extrapolate_from c y1 v1 extra) 0) with (nth j (extrapolate_from c y1 v1 extra) 0).
    change (nth (S j) (y1 :: extra) 0) with (nth j extra 0). apply extrapolate_step. exact J.
  Qed.
End Tail.
(** Beyond the file, the series moves in the direction of its last change, and stops at 2150. *)
Lemma C13_monotone_then_constant_pf : forall values years extra out,
  (2 <= List.length values)%nat -> List.length years = List.length values -> increasing (years ++ extra) ->
  extrapolate values years extra = Ok out ->
  let n := List.length values in
  forall i, (n <= i < n + List.length extra)%nat ->
  (nth (n - 2) out 0 <= nth (n - 1) out 0 -> nth (i - 1) out 0 <= nth i out 0) /\
  (nth (n - 1) out 0 <= nth (n - 2) out 0 -> nth i out 0 <= nth (i - 1) out 0) /\
  (2150 <= nth (i - 1) (years ++ extra) 0 -> nth i out 0 = nth (i - 1) out 0).
Proof.
  intros vs ys ex out N L I E n i Hi. pose proof (tail_step vs ys ex out N L E i Hi) as S. cbn zeta in S. fold n in S. rewrite S. clear S.
  set (t j := nth j (ys ++ ex) 0). set (x j := nth j out 0).
  assert (T : t (i - 1)%nat < t i) by (apply I; rewrite app_length, L; fold n; lia).
  assert (T' : t (n - 2)%nat < t (n - 1)%nat) by (apply I; rewrite app_length, L; fold n; lia).
  fold (t i) (t (i - 1)%nat) (t (n - 1)%nat) (t (n - 2)%nat) (x (n - 1)%nat) (x (n - 2)%nat) (x (i - 1)%nat). set (c := (x (n - 1)%nat - x (n - 2)%nat) / (t (n - 1)%nat - t (n - 2)%nat)).
  destruct (growth_sign c (t (i - 1)%nat)) as [G1 G2]. split; [|split].
  - intros H. assert (0 <= c) by (apply div_bound; lra). specialize (G1 H0). nra.
  - intros H. assert (c <= 0) by (apply div_le; lra). specialize (G2 H0). nra.
  - intros H. rewrite growth_zero by exact H. ring.
Qed.
(** If the file reaches 2100, the extrapolated yearly change never exceeds the last one in the file. *)
Lemma C13_growth_bounded_pf : forall values years extra out,
  (2 <= List.length values)%nat -> List.length years = List.length values -> increasing (years ++ extra) ->
  extrapolate values years extra = Ok out ->
  let n := List.length values in
  let rate i := (nth i out 0 - nth (i - 1) out 0) / (nth i (years ++ extra) 0 - nth (i - 1) (years ++ extra) 0) in
  2100 <= nth (n - 1) (years ++ extra) 0 ->
  forall i, (n <= i < n + List.length extra)%nat -> Rabs (rate i) <= Rabs (rate (n - 1)%nat).
Proof.
  intros vs ys ex out N L I E n rate H i Hi. unfold rate. pose proof (tail_step vs ys ex out N L E i Hi) as S. cbn zeta in S. fold n in S.
  set (t j := nth j (ys ++ ex) 0) in *. set (x j := nth j out 0) in *.
  fold (t i) (t (i - 1)%nat) (t (n - 1)%nat) (t (n - 2)%nat) (x (n - 1)%nat) (x (n - 2)%nat) (x (i - 1)%nat) (x i) in *.
  replace (n - 1 - 1)%nat with (n - 2)%nat by lia. fold (t (n - 2)%nat) (x (n - 2)%nat).
  assert (T : t (i - 1)%nat < t i) by (apply I; rewrite app_length, L; fold n; lia). rewrite S.
  match goal with |- Rabs ?a <= _ => replace a with (growth ((x (n - 1)%nat - x (n - 2)%nat) / (t (n - 1)%nat - t (n - 2)%nat)) (t (i - 1)%nat)) by (field; lra) end.
  apply growth_abs. destruct (Nat.eq_dec i n) as [->|K]; [exact H|].
  assert (t (n - 1)%nat < t (i - 1)%nat) by (apply I; rewrite app_length, L; fold n; lia). unfold t in *. lra.
Qed.
(** If the file ends before 2100 (as the output of an earlier run may), the first extrapolated change is
    larger than the last one in the file, by the factor 1 + (2100 - last year)/50. *)
Lemma C13_early_end_amplified_pf : forall values years extra out,
  (2 <= List.length values)%nat -> List.length years = List.length values -> increasing (years ++ extra) ->
  extrapolate values years extra = Ok out -> (0 < List.length extra)%nat ->
  let n := List.length values in
  let rate i := (nth i out 0 - nth (i - 1) out 0) / (nth i (years ++ extra) 0 - nth (i - 1) (years ++ extra) 0) in
  let last := nth (n - 1) (years ++ extra) 0 in
  last <= 2100 -> rate n = (1 + (2100 - last) / 50) * rate (n - 1)%nat.
Proof.
  intros vs ys ex out N L I E LE n rate last H. unfold rate. pose proof (tail_step vs ys ex out N L E n) as S. cbn zeta in S. fold n in S.
  unfold last in *. set (t j := nth j (ys ++ ex) 0) in *. set (x j := nth j out 0) in *.
  fold (t n) (t (n - 1)%nat) (t (n - 2)%nat) (x (n - 1)%nat) (x (n - 2)%nat) (x n) in *.
  replace (n - 1 - 1)%nat with (n - 2)%nat by lia. fold (t (n - 2)%nat) (x (n - 2)%nat).
  assert (T : t (n - 1)%nat < t n) by (apply I; rewrite app_length, L; fold n; lia).
  assert (T' : t (n - 2)%nat < t (n - 1)%nat) by (apply I; rewrite app_length, L; fold n; lia).
  rewrite S by lia. set (c := (x (n - 1)%nat - x (n - 2)%nat) / (t (n - 1)%nat - t (n - 2)%nat)).
  transitivity (growth c (t (n - 1)%nat)); [field; lra|]. unfold growth.
  replace (c - c * (t (n - 1)%nat - 2100) / 50) with ((1 + (2100 - t (n - 1)%nat) / 50) * c) by field.
  assert (0 < 1 + (2100 - t (n - 1)%nat) / 50) by lra. destruct (Rlt_dec 0 c); [apply Rmax_right; nra|apply Rmin_right; nra].
Qed.
(** The bundled data end in 2100: 30 years' worth of the last change is added until 2150, nothing after. *)
Lemma C13_bundled_files_pf : forall m v0 v1 my y0,
  exists a b c d,
  extrapolate (m ++ [v0; v1]) (my ++ [y0; 2100]) extra_years
  = Ok ((m ++ [v0; v1]) ++ [a; b; c; d] ++ repeat (v1 + 30 * ((v1 - v0) / (2100 - y0))) 11)%list.
Proof.
  intros m v0 v1 my y0. rewrite extrapolate_eq. set (k := (v1 - v0) / (2100 - y0)).
  assert (G : forall t, 2100 <= t <= 2150 -> growth k t = k * (1 - (t - 2100) / 50)).
  { intros t H. unfold growth. replace (k - k * (t - 2100) / 50) with (k * (1 - (t - 2100) / 50)) by field. assert (0 <= 1 - (t - 2100) / 50) by lra.
    destruct (Rlt_dec 0 k); [apply Rmax_right; nra|apply Rmin_right; nra]. }
  unfold extra_years. cbn [extrapolate_from repeat app].
  rewrite (G 2100), (G 2110), (G 2120), (G 2130), (G 2140), !growth_zero by lra.
  do 4 eexists. f_equal. f_equal. do 4 (apply f_equal2; [reflexivity|]). repeat (apply f_equal2; [field|]). reflexivity.
Qed.
