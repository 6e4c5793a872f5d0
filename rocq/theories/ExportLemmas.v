(** C48: the exported table. *)
From Coq Require Import Lra Lia FinFun.
From Verif Require Import ModelFacts ModelSpec Build BuildFacts SimMode SimModeLemmas Export.
Set Bullet Behavior "Strict Subproofs".
Open Scope R_scope.

(** *** names *)
Lemma all_names_nodup : NoDup (map vname all_vars).
Proof. apply nodupb_ok. vm_compute. reflexivity. Qed.
Lemma NoDup_map_filter {A B} (f : A -> B) (q : A -> bool) l : NoDup (map f l) -> NoDup (map f (filter q l)).
Proof.
  induction l as [|a l IH]; cbn [map filter]; intros H; [constructor|]. inversion H as [|? ? H1 H2]; subst.
  destruct (q a); cbn [map]; auto. constructor; auto. intros K. apply H1. apply in_map_iff in K as (b & E & K).
  apply filter_In in K as [K _]. rewrite <- E. apply in_map; auto.
Qed.
Lemma NoDup_app_intro {A} (l l' : list A) : NoDup l -> NoDup l' -> (forall x, In x l -> ~ In x l') -> NoDup (l ++ l')%list.
Proof.
  induction l as [|a l IH]; cbn [app]; intros H H' D; [exact H'|]. inversion H as [|? ? H1 H2]; subst. constructor.
  - intros K. apply in_app_or in K as [K|K]; [auto|]. apply (D a); auto. left; reflexivity.
  - apply IH; auto. intros x Hx. apply D. right; auto.
Qed.
Lemma names_disjoint p w s : declared p w = true -> In s (map fst (time_region_params p)) -> vname w <> s.
Proof.
  intros D H E. subst s. unfold time_region_params in H. rewrite !map_app in H.
  assert (ST : forall l, forallb (fun s => negb (existsb (String.eqb s) (map vname all_vars))) l = true -> ~ In (vname w) l).
  { intros l L K. rewrite forallb_forall in L. specialize (L _ K). apply negb_true_iff in L. apply existsb_false in L. apply L.
    apply in_map. apply (find_some _ _ (vname_find w)). }
  apply in_app_or in H as [H|H]; [revert H; apply ST; vm_compute; reflexivity|].
  apply in_app_or in H as [H|H].
  { destruct (trade p) eqn:T; [|destruct H|destruct H]. cbn [map fst In] in H. destruct H as [H|[H|[]]].
    - assert (W : w = Rv v_import_export_emission_reduction_balance) by (apply vname_inj; symmetry; exact H). subst w. cbn [declared declared_r] in D. rewrite T in D. discriminate.
    - assert (W : w = Rv v_import_export_mitigation_cost_balance) by (apply vname_inj; symmetry; exact H). subst w. cbn [declared declared_r] in D. rewrite T in D. discriminate. }
  apply in_app_or in H as [H|H]; [|revert H; apply ST; vm_compute; reflexivity].
  destruct (transfer p) eqn:T; [|destruct H]. cbn [map fst In] in H. destruct H as [H|[H|[]]].
  - assert (W : w = Rv v_financial_transfer) by (apply vname_inj; symmetry; exact H). subst w. cbn [declared declared_r] in D. rewrite T in D. discriminate.
  - assert (W : w = Rv v_rel_financial_transfer) by (apply vname_inj; symmetry; exact H). subst w. cbn [declared declared_r] in D. rewrite T in D. discriminate.
Qed.
Lemma param_names_nodup p : NoDup (map fst (time_region_params p)).
Proof.
  unfold time_region_params. destruct (trade p), (transfer p); apply nodupb_ok; vm_compute; reflexivity.
Qed.

Section Rows.
  Variables (p : pars) (u : string -> string) (v : point).
  Notation key := (fun x : row => (r_variable x, r_region x)).
  Definition group (q : string * list row) : list row := snd q.
  (** rows as groups, one per variable or parameter *)
  Definition groups : list (string * list row) :=
    (map (fun w => (vname w, var_to_row p u v w)) (variables p)
     ++ map (fun q => (fst q, regional_rows p u (fst q) (snd q))) (time_region_params p))%list.
  Lemma rows_groups : rows p u v = flat_map snd groups.
  Proof. unfold rows, groups. rewrite flat_map_app. f_equal; rewrite !flat_map_concat_map, map_map; reflexivity. Qed.
  Lemma groups_nodup : NoDup (map fst groups).
  Proof.
    unfold groups. rewrite map_app, !map_map. cbn [fst]. apply NoDup_app_intro.
    - apply NoDup_map_filter, all_names_nodup.
    - apply param_names_nodup.
    - intros s H K. apply in_map_iff in H as (w & <- & W). apply variables_spec in W. apply (names_disjoint p w _ W K). reflexivity.
  Qed.
  Lemma group_rows g x : In g groups -> In x (snd g) -> r_variable x = fst g.
  Proof.
    unfold groups. intros H X. apply in_app_or in H as [H|H]; apply in_map_iff in H as (w & <- & _); cbn [fst snd] in *.
    - destruct w as [w|w]; cbn [var_to_row] in X.
      + destruct X as [<-|[]]. reflexivity.
      + apply in_map_iff in X as (r & <- & _). reflexivity.
    - apply in_map_iff in X as (r & <- & _). reflexivity.
  Qed.
  Lemma regional_keys n f : map key (regional_rows p u n f) = map (fun r => (n, r)) (regions p).
  Proof. unfold regional_rows. rewrite map_map. reflexivity. Qed.
  Hypothesis NDR : NoDup (regions p).
  Lemma group_nodup g : In g groups -> NoDup (map key (snd g)).
  Proof.
    assert (Q : forall n f, NoDup (map key (regional_rows p u n f))).
    { intros n f. rewrite regional_keys. apply Injective_map_NoDup; [|exact NDR]. intros a b H. injection H; auto. }
    unfold groups. intros H. apply in_app_or in H as [H|H]; apply in_map_iff in H as (w & <- & _); cbn [fst snd]; [|apply Q].
    destruct w as [w|w]; cbn [var_to_row]; [|apply Q]. constructor; [intros []|constructor].
  Qed.
  Lemma rows_nodup : NoDup (map key (rows p u v)).
  Proof.
    rewrite rows_groups. generalize groups_nodup group_nodup group_rows. generalize groups as G.
    induction G as [|g G IH]; cbn [map flat_map]; intros N1 N2 N3; [constructor|]. inversion N1 as [|? ? N4 N5]; subst.
    rewrite map_app. apply NoDup_app_intro.
    - apply N2; left; reflexivity.
    - apply IH; auto; intros; [apply N2|apply N3]; auto; right; auto.
    - intros k K1 K2. apply in_map_iff in K1 as (x & <- & X). apply in_map_iff in K2 as (y & E & Y). injection E as E1 E2.
      apply in_flat_map in Y as (g' & G1 & G2). apply N4. rewrite <- (N3 g x), <- E1, (N3 g' y); auto; try (left; reflexivity); try (right; auto).
      apply in_map; auto.
  Qed.
  Lemma rows_spec x : In x (rows p u v) <->
    (exists g, declared_g p g = true /\ x = {| r_variable := gname g; r_region := "Global"; r_unit := u (gname g); r_values := map (gval v g) (steps p) |}) \/
    (exists y r, declared_r p y = true /\ In r (regions p) /\ x = {| r_variable := rname y; r_region := r; r_unit := u (rname y); r_values := map (fun t => rval v y t r) (steps p) |}) \/
    (exists q r, In q (time_region_params p) /\ In r (regions p) /\ x = {| r_variable := fst q; r_region := r; r_unit := u (fst q); r_values := map (fun t => snd q t r) (steps p) |}).
  Proof.
    unfold rows. rewrite in_app_iff, !in_flat_map. split.
    - intros [(w & W & X)|(q & Q & X)].
      + apply variables_spec in W. destruct w as [g|y]; cbn [var_to_row] in X.
        * destruct X as [<-|[]]. left. exists g. auto.
        * apply in_map_iff in X as (r & <- & Hr). right; left. exists y, r. auto.
      + apply in_map_iff in X as (r & <- & Hr). right; right. exists q, r. auto.
    - intros [(g & G & ->)|[(y & r & Y & Hr & ->)|(q & r & Q & Hr & ->)]].
      + left. exists (Gv g). split; [apply variables_spec; exact G|left; reflexivity].
      + left. exists (Rv y). split; [apply variables_spec; exact Y|]. cbn [var_to_row]. apply in_map_iff. exists r. auto.
      + right. exists q. split; [exact Q|]. apply in_map_iff. exists r. auto.
  Qed.
End Rows.

(** *** year labels *)
Lemma digit_inj a b : (a < 10)%nat -> (b < 10)%nat -> digit a = digit b -> a = b.
Proof.
  intros A B H. do 10 (destruct a as [|a]; [do 10 (destruct b as [|b]; [first [reflexivity|discriminate H]|]); lia|]). lia.
Qed.
Definition no_point_str (s : string) : Prop := str_contains "." s = false.
Fixpoint before_point (s : string) : string :=
  match s with
  | EmptyString => EmptyString
  | String c r => if Ascii.eqb c "."%char then EmptyString else String c (before_point r)
  end.
Fixpoint all_digits (s : string) : bool :=
  match s with EmptyString => true | String c r => negb (Ascii.eqb c "."%char) && all_digits r end.
Lemma str_nat_digits n : all_digits (str_nat n) = true.
Proof.
  unfold str_nat. assert (H : forall d, all_digits (DecimalString.NilEmpty.string_of_uint d) = true).
  { induction d; cbn; auto. }
  unfold DecimalString.NilZero.string_of_uint. destruct (Nat.to_uint n) eqn:E; [reflexivity|..]; apply H.
Qed.
Lemma before_point_app s r : all_digits s = true -> before_point (s ++ String "."%char r) = s.
Proof. induction s as [|c s IH]; cbn; [reflexivity|]. intros H. apply andb_true_iff in H as [A B]. apply negb_true_iff in A. rewrite A, IH; auto. Qed.
Lemma before_point_id s : all_digits s = true -> before_point s = s.
Proof. induction s as [|c s IH]; cbn; [reflexivity|]. intros H. apply andb_true_iff in H as [A B]. apply negb_true_iff in A. rewrite A, IH; auto. Qed.
Lemma app_nil_str s : (s ++ "")%string = s.
Proof. induction s as [|c s IH]; cbn; [reflexivity|rewrite IH; reflexivity]. Qed.
Lemma format_before n : before_point (format_hundredths n) = str_nat (n / 100).
Proof.
  unfold format_hundredths. destruct (Nat.eqb _ 0).
  - rewrite app_nil_str. apply before_point_id, str_nat_digits.
  - cbn [append]. apply before_point_app, str_nat_digits.
Qed.
Lemma format_inj a b : format_hundredths a = format_hundredths b -> a = b.
Proof.
  intros H. assert (Q : (a / 100 = b / 100)%nat). { apply str_nat_inj. rewrite <- !format_before, H. reflexivity. }
  assert (F : (a mod 100 = b mod 100)%nat).
  { unfold format_hundredths in H. rewrite Q in H. apply app_inj in H.
    pose proof (Nat.mod_upper_bound a 100 ltac:(lia)) as A1. pose proof (Nat.mod_upper_bound b 100 ltac:(lia)) as B1.
    set (x := (a mod 100)%nat) in *. set (y := (b mod 100)%nat) in *. clearbody x y. clear Q a b.
    pose proof (Nat.div_mod x 10 ltac:(lia)) as DX. pose proof (Nat.div_mod y 10 ltac:(lia)) as DY.
    pose proof (Nat.mod_upper_bound x 10 ltac:(lia)). pose proof (Nat.mod_upper_bound y 10 ltac:(lia)).
    assert (x / 10 < 10)%nat by (apply Nat.div_lt_upper_bound; lia). assert (y / 10 < 10)%nat by (apply Nat.div_lt_upper_bound; lia).
    assert (LD : forall n, exists c, digit n = String c EmptyString).
    { intros n. do 9 (destruct n as [|n]; [eexists; reflexivity|]). eexists; destruct n; reflexivity. }
    destruct (Nat.eqb_spec x 0) as [X|X]; destruct (Nat.eqb_spec y 0) as [Y|Y]; try discriminate; [lia|].
    apply (app_inj ".") in H.
    destruct (LD (x / 10)%nat) as [c1 E1]. destruct (LD (y / 10)%nat) as [c2 E2].
    assert (T : (x / 10 = y / 10)%nat). { apply digit_inj; auto. rewrite E1, E2. rewrite E1, E2 in H. cbn [append] in H. injection H as -> _. reflexivity. }
    rewrite T in H. apply app_inj in H.
    destruct (LD (x mod 10)%nat) as [c3 E3]. destruct (LD (y mod 10)%nat) as [c4 E4].
    destruct (Nat.eqb_spec (x mod 10) 0) as [X1|X1]; destruct (Nat.eqb_spec (y mod 10) 0) as [Y1|Y1].
    - lia.
    - rewrite E4 in H. discriminate.
    - rewrite E3 in H. discriminate.
    - apply digit_inj in H; auto. lia. }
  rewrite (Nat.div_mod a 100), (Nat.div_mod b 100) by lia. rewrite Q, F. reflexivity.
Qed.

(** ** Theorems *)
Lemma C48_table_complete_pf : forall p unit_of v,
  (forall g, declared_g p g = true -> exists row, In row (rows p unit_of v) /\
     r_variable row = gname g /\ r_region row = "Global"%string /\ r_unit row = unit_of (gname g) /\ r_values row = map (gval v g) (seq 0 (S (tf p)))) /\
  (forall x r, declared_r p x = true -> In r (regions p) -> exists row, In row (rows p unit_of v) /\
     r_variable row = rname x /\ r_region row = r /\ r_unit row = unit_of (rname x) /\ r_values row = map (fun t => rval v x t r) (seq 0 (S (tf p)))) /\
  (forall name f r, In (name, f) (time_region_params p) -> In r (regions p) -> exists row, In row (rows p unit_of v) /\
     r_variable row = name /\ r_region row = r /\ r_unit row = unit_of name /\ r_values row = map (fun t => f t r) (seq 0 (S (tf p)))).
Proof.
  intros p u v. split; [|split].
  - intros g G. eexists. split; [apply rows_spec; left; exists g; eauto|]. auto.
  - intros x r X Hr. eexists. split; [apply rows_spec; right; left; exists x, r; eauto|]. auto.
  - intros nm f r X Hr. eexists. split; [apply rows_spec; right; right; exists (nm, f), r; eauto|]. auto.
Qed.
Lemma C48_table_rectangular_pf : forall p unit_of v rnd row, In row (rows p unit_of v) ->
  List.length (r_values row) = S (tf p) /\ List.length (columns rnd p) = (3 + List.length (r_values row))%nat /\
  ((exists g, declared_g p g = true /\ r_variable row = gname g /\ r_region row = "Global"%string) \/
   (In (r_region row) (regions p) /\
    ((exists x, declared_r p x = true /\ r_variable row = rname x) \/ In (r_variable row) (map fst (time_region_params p))))).
Proof.
  intros p u v rnd x X. unfold columns, year_labels, steps. rewrite app_length, map_length, seq_length. cbn [List.length].
  apply rows_spec in X as [(g & G & ->)|[(y & r & Y & Hr & ->)|(q & r & Q & Hr & ->)]]; cbn [r_values r_variable r_region];
    unfold steps; rewrite map_length, seq_length; (split; [reflexivity|split; [reflexivity|]]).
  - left. eauto.
  - right. split; [exact Hr|]. left. eauto.
  - right. split; [exact Hr|]. right. apply in_map; exact Q.
Qed.
(** No two rows describe the same variable and region. *)
Lemma C48_rows_distinct_pf : forall p unit_of v, NoDup (regions p) ->
  NoDup (map (fun row => (r_variable row, r_region row)) (rows p unit_of v)).
Proof. intros p u v N. apply rows_nodup; exact N. Qed.
Lemma rabs_inv x a : Rabs x <= a -> - a <= x <= a.
Proof. unfold Rabs. destruct (Rcase_abs x); lra. Qed.
(** Different model years have different column labels. *)
Lemma C48_year_labels_distinct_pf : forall p rnd, (forall x, Rabs (IZR (rnd x) - x) <= 1/2) ->
  1000 <= beginyear p -> 5/10 <= dt p -> NoDup (year_labels rnd p).
Proof.
  intros p rnd RN B D. unfold year_labels. apply Injective_map_NoDup; [|apply seq_NoDup].
  intros s t E. unfold year_label in E. apply format_inj in E.
  assert (Y : forall k, 1000 <= year p k) by (intros k; unfold year; pose proof (pos_INR k); nra).
  assert (P : forall k, (0 < rnd (100 * year p k)%R)%Z).
  { intros k. apply lt_IZR. pose proof (RN (100 * year p k)) as Q. apply rabs_inv in Q. pose proof (Y k). lra. }
  assert (Z : rnd (100 * year p s) = rnd (100 * year p t)).
  { pose proof (P s) as A1. pose proof (P t) as A2. apply Z2Nat.inj; [apply Z.lt_le_incl; exact A1|apply Z.lt_le_incl; exact A2|exact E]. }
  pose proof (RN (100 * year p s)) as Q1. pose proof (RN (100 * year p t)) as Q2. rewrite Z in Q1. apply rabs_inv in Q1. apply rabs_inv in Q2.
  assert (A : Rabs (year p s - year p t) <= 1/100) by (apply Rabs_le; lra).
  unfold year in A. replace (beginyear p + INR s * dt p - (beginyear p + INR t * dt p)) with ((INR s - INR t) * dt p) in A by ring.
  destruct (Nat.lt_trichotomy s t) as [L|[L|L]]; [|exact L|].
  - apply le_INR in L. rewrite S_INR in L. apply rabs_inv in A. nra.
  - apply le_INR in L. rewrite S_INR in L. apply rabs_inv in A. nra.
Qed.
Lemma string_app_nil s : (s ++ "")%string = s.
Proof. induction s as [|c s IH]; cbn; [reflexivity|f_equal; exact IH]. Qed.
(** The header line: three fixed names, then one label per model year, in order; whole years are written
    without decimals, half years with one. *)
Lemma C48_header_pf : forall p rnd, (forall x, Rabs (IZR (rnd x) - x) <= 1/2) ->
  exists labels, columns rnd p = ("Variable" :: "Region" :: "Unit" :: labels)%string%list /\ List.length labels = S (tf p) /\
    forall t n, (t <= tf p)%nat -> 
      (year p t = INR n -> nth t labels ""%string = str_nat n) /\
      (year p t = INR n + 1/2 -> nth t labels ""%string = (str_nat n ++ ".5")%string).
Proof.
  intros p rnd RN. exists (year_labels rnd p). split; [reflexivity|]. unfold year_labels, steps. split; [rewrite map_length, seq_length; reflexivity|].
  intros t n L.
  assert (N : nth t (map (fun t => year_label rnd (year p t)) (seq 0 (S (tf p)))) ""%string = year_label rnd (year p t)).
  { rewrite (nth_indep _ ""%string (year_label rnd (year p 0%nat))) by (rewrite map_length, seq_length; lia).
    rewrite (map_nth (fun t => year_label rnd (year p t))), seq_nth by lia. reflexivity. }
  rewrite N.
  assert (Z : forall z, rnd (IZR z) = z).
  { intros z. pose proof (RN (IZR z)) as H. rewrite <- minus_IZR in H. apply Rcomplements.Rabs_le_between in H.
    destruct (Z_lt_le_dec (rnd (IZR z) - z) 0) as [K|K]; [|destruct (Z_lt_le_dec 0 (rnd (IZR z) - z)) as [K'|K']; [|lia]].
    - assert (IZR (rnd (IZR z) - z) <= -1) by (apply IZR_le; lia). lra.
    - assert (1 <= IZR (rnd (IZR z) - z)) by (apply IZR_le; lia). lra. }
  assert (W : forall k, year p t = INR k / 100 -> year_label rnd (year p t) = format_hundredths k).
  { intros k ->. unfold year_label. replace (100 * (INR k / 100)) with (IZR (Z.of_nat k)) by (rewrite <- INR_IZR_INZ; field). rewrite Z, Nat2Z.id. reflexivity. }
  split; intros E.
  - rewrite (W (n * 100)%nat) by (rewrite E, mult_INR; replace (INR 100) with 100 by (cbn; lra); field).
    unfold format_hundredths. rewrite Nat.mod_mul, Nat.div_mul by lia. cbn [Nat.eqb]. rewrite string_app_nil. reflexivity.
  - rewrite (W (n * 100 + 50)%nat) by (rewrite E, plus_INR, mult_INR; replace (INR 100) with 100 by (cbn; lra); replace (INR 50) with 50 by (cbn; lra); field).
    unfold format_hundredths.
    replace ((n * 100 + 50) mod 100)%nat with 50%nat by (rewrite Nat.add_comm, Nat.mod_add by lia; reflexivity).
    replace ((n * 100 + 50) / 100)%nat with n by (rewrite Nat.add_comm, Nat.div_add by lia; reflexivity).
    reflexivity.
Qed.
