(** C14: which row of a data file is used. *)
From Verif Require Import PyBase TimeGrid TimeGridLemmas DataStore DataStoreLemmas.
From Coq Require Import Lia.
Import ListNotations.
Open Scope R_scope.
Open Scope string_scope.

(** *** Specification *)
(** The first column called [c] (in whatever capitals) is number [n]. *)
Definition column_at (t : table) (c : string) (n : nat) : Prop :=
  nth_error (map str_lower (t_columns t)) n = Some c /\
  forall m, (m < n)%nat -> nth_error (map str_lower (t_columns t)) m <> Some c.
Definition entry_is (t : table) (row : list pyval) (c s : string) : Prop :=
  exists n, column_at t c n /\ nth_error row n = Some (VStr s).
(** A region "X#" of the model is called "X" in the data files, every other region by its own name. *)
Definition name_in_file (region base : string) : Prop :=
  region = base ++ "#" \/ (region = base /\ forall b, region <> b ++ "#").
(** The row is about this region, and about the model, scenario and variable of the datasource. *)
Definition describes (t : table) (s : source) (region : string) (row : list pyval) : Prop :=
  entry_is t row "model" (s_model s) /\ entry_is t row "scenario" (s_scenario s) /\
  (exists base, name_in_file region base /\ entry_is t row "region" base) /\
  entry_is t row "variable" (s_variable s).
(** The series of a row: all columns from "2010" on are years. *)
Definition series_of_row (t : table) (row : list pyval) (x : series) : Prop :=
  (exists n, column_at t "2010" n /\ List.length (years x) = (List.length (t_columns t) - n)%nat /\
     forall j, (nth_error (cells x) j = nth_error row (n + j)) /\
       forall y, nth_error (years x) j = Some y ->
         exists label q, nth_error (map str_lower (t_columns t)) (n + j) = Some label /\ parse_float_str label = Some (FFin q) /\ y = Q2R q) /\
  (exists n, column_at t "unit" n /\ nth_error row n = Some (unit_label x)).

(** *** Proofs *)
Lemma index_of_spec c : forall l n, index_of c l = Ok n <->
  (nth_error l n = Some c /\ forall m, (m < n)%nat -> nth_error l m <> Some c).
Proof.
  induction l as [|x l IH]; intros n; cbn [index_of].
  - split; [discriminate|]. intros [H _]. destruct n; discriminate.
  - destruct (String.eqb x c) eqn:E.
    + apply String.eqb_eq in E. subst x. split; [intros H; injection H as <-; split; [reflexivity|intros m L; lia]|].
      intros [_ H]. destruct n as [|n]; [reflexivity|]. exfalso. apply (H 0%nat); [lia|reflexivity].
    + apply String.eqb_neq in E. split.
      * intros H. apply bind_ok in H as (k & K & H). injection H as <-. apply IH in K as [K1 K2]. split; [exact K1|].
        intros [|m] L; [cbn; congruence|]. cbn. apply K2. lia.
      * intros [H1 H2]. destruct n as [|n]; [cbn in H1; congruence|]. cbn in H1.
        assert (K : index_of c l = Ok n) by (apply IH; split; [exact H1|intros m L; apply (H2 (S m)); lia]). rewrite K. reflexivity.
Qed.
Lemma cell_is_spec row n s : cell_is row n s = true <-> nth_error row n = Some (VStr s).
Proof.
  unfold cell_is. destruct (nth_error row n) as [[| | | |x| |]|]; split; intros H; try discriminate H; try congruence.
  - apply String.eqb_eq in H. congruence.
  - injection H as ->. apply String.eqb_refl.
Qed.
Lemma entry_spec t row c s n : column_at t c n -> (entry_is t row c s <-> nth_error row n = Some (VStr s)).
Proof.
  intros C. split; [|intros H; exists n; auto]. intros (m & M & H).
  apply index_of_spec in C. apply index_of_spec in M. rewrite C in M. injection M as ->. exact H.
Qed.
Lemma string_list s : string_of_list_ascii (list_ascii_of_string s) = s.
Proof. apply string_of_list_ascii_of_string. Qed.
Lemma list_app_string a : forall b, list_ascii_of_string (a ++ b) = (list_ascii_of_string a ++ list_ascii_of_string b)%list.
Proof. induction a as [|c a IH]; intros b; cbn; [reflexivity|f_equal; apply IH]. Qed.
Lemma file_region_spec region base : file_region region = Ok base -> name_in_file region base /\
  forall base', name_in_file region base' -> base' = base.
Proof.
  unfold file_region. destruct (rev (list_ascii_of_string region)) as [|c r] eqn:E; [discriminate|]. intros H. injection H as H.
  assert (L : list_ascii_of_string region = (rev r ++ [c])%list) by (rewrite <- (rev_involutive (list_ascii_of_string region)), E; reflexivity).
  assert (W : forall b, region = b ++ "#" <-> c = "#"%char /\ rev r = list_ascii_of_string b).
  { intros b. split.
    - intros ->. rewrite list_app_string in L. apply app_inj_tail in L as [L1 L2]. auto.
    - intros [-> B]. rewrite B in L. rewrite <- (string_list region), L.
      change ["#"%char] with (list_ascii_of_string "#"). rewrite <- list_app_string. apply string_list. }
  destruct (Ascii.eqb c "#") eqn:C.
  - apply Ascii.eqb_eq in C. subst c base. split.
    + left. apply W. split; [reflexivity|]. symmetry. apply list_ascii_of_string_of_list_ascii.
    + intros b [B|[-> B]]; [apply W in B as [_ ->]; symmetry; apply string_list|].
      exfalso. apply (B (string_of_list_ascii (rev r))). apply W. split; [reflexivity|]. symmetry. apply list_ascii_of_string_of_list_ascii.
  - apply Ascii.eqb_neq in C. subst base. split.
    + right. split; [reflexivity|]. intros b B. apply W in B as [B _]. contradiction.
    + intros b [B|[-> _]]; [apply W in B as [B _]; contradiction|reflexivity].
Qed.
Lemma filter_one {A} (f : A -> bool) x : forall l, filter f l = [x] ->
  exists l1 l2, l = (l1 ++ x :: l2)%list /\ f x = true /\ forall y, In y (l1 ++ l2)%list -> f y = false.
Proof.
  induction l as [|a l IH]; [discriminate|]. cbn. destruct (f a) eqn:F; intros H.
  - injection H as -> H. exists [], l. split; [reflexivity|]. split; [exact F|]. intros y Y. cbn in Y.
    destruct (f y) eqn:G; [|reflexivity]. assert (K : In y (filter f l)) by (apply filter_In; auto). rewrite H in K. destruct K.
  - destruct (IH H) as (l1 & l2 & -> & H1 & H2). exists (a :: l1), l2. split; [reflexivity|]. split; [exact H1|].
    intros y [<-|Y]; auto.
Qed.
Lemma map_result_nth {A B} (f : A -> result B) : forall l l' j y, map_result f l = Ok l' -> nth_error l' j = Some y ->
  exists x, nth_error l j = Some x /\ f x = Ok y.
Proof.
  induction l as [|a l IH]; intros l' j y H N; cbn [map_result] in H; [injection H as <-; destruct j; discriminate|].
  apply bind_ok in H as (b & Hb & H). apply bind_ok in H as (bs & Hs & H). injection H as <-.
  destruct j as [|j]; cbn in *; [injection N as <-; eauto|eauto].
Qed.
Lemma nth_error_skip {A} n : forall (l : list A) j, nth_error (skipn n l) j = nth_error l (n + j).
Proof. induction n as [|n IH]; intros [|a l] j; cbn; auto; destruct j; reflexivity. Qed.

Lemma in_file_row t s r x : in_file t s r = Ok x ->
  exists l1 row l2, t_rows t = (l1 ++ row :: l2)%list /\ describes t s r row /\
    (forall other, In other (l1 ++ l2)%list -> ~ describes t s r other) /\ series_of_row t row x.
Proof.
  unfold in_file, select. intros H. cbn [t_columns t_rows lower_columns] in H.
  apply bind_ok in H as (c1 & C1 & H). apply bind_ok in H as (c2 & C2 & H). apply bind_ok in H as (c3 & C3 & H).
  apply bind_ok in H as (b & B & H). apply bind_ok in H as (c4 & C4 & H).
  destruct (filter _ (t_rows t)) as [|row [|? ?]] eqn:F; [discriminate| |discriminate].
  apply filter_one in F as (l1 & l2 & F & G & O). exists l1, row, l2.
  apply index_of_spec in C1, C2, C3, C4. fold (column_at t "model" c1) in C1. fold (column_at t "scenario" c2) in C2.
  fold (column_at t "region" c3) in C3. fold (column_at t "variable" c4) in C4.
  destruct (file_region_spec _ _ B) as [B1 B2].
  assert (W : forall o, describes t s r o <->
     (cell_is o c1 (s_model s) && cell_is o c2 (s_scenario s) && cell_is o c3 b && cell_is o c4 (s_variable s))%bool = true).
  { intros o. rewrite !Bool.andb_true_iff, !cell_is_spec. unfold describes.
    rewrite (entry_spec _ _ _ _ _ C1), (entry_spec _ _ _ _ _ C2), (entry_spec _ _ _ _ _ C4). split.
    - intros (A1 & A2 & (b' & N & A3) & A4). apply B2 in N. subst b'. rewrite (entry_spec _ _ _ _ _ C3) in A3. tauto.
    - intros (((A1 & A2) & A3) & A4). split; [exact A1|]. split; [exact A2|]. split; [|exact A4]. exists b. split; [exact B1|].
      apply (entry_spec _ _ _ _ _ C3). exact A3. }
  split; [exact F|]. split; [apply W, G|]. split; [intros o I; rewrite W, (O o I); discriminate|].
  apply bind_ok in H as (n & N & H). apply bind_ok in H as (ys & Y & H). apply bind_ok in H as (u & U & H).
  destruct (nth_error row u) as [un|] eqn:E; [|discriminate]. injection H as <-. unfold series_of_row. cbn [years cells unit_label].
  apply index_of_spec in N, U. split; [|exists u; split; [exact U|exact E]]. exists n. split; [exact N|].
  split; [rewrite (map_result_length _ _ _ Y), skipn_length, map_length; reflexivity|].
  intros j. split; [apply nth_error_skip|]. intros y J. destruct (map_result_nth _ _ _ _ _ Y J) as (label & L1 & L2).
  rewrite nth_error_skip in L1. exists label. unfold year_of in L2. destruct (parse_float_str label) as [[q| | |]|]; try discriminate.
  injection L2 as <-. eauto.
Qed.

Lemma in_values {A} (k : string) : forall (l : list (string * A)), In k (map fst l) -> exists v, In (k, v) l.
Proof. intros l H. apply in_map_iff in H as ([k' v] & <- & H). exists v. exact H. Qed.

(** A store is only created if, for every configured variable and every region, exactly one row of the
    variable's file carries the configured model, scenario and variable and the region's name; the region's
    values are that row's numbers (columns from "2010" on) in that row's unit, converted and interpolated. *)
Lemma C14_configured_row_pf : forall uf sp disk h a out name s r,
  NoDup (map fst (a_variables a)) ->
  snd (data_store disk uf sp a (after uf sp h empty_caches)) = Ok out ->
  In (name, s) (a_variables a) -> In r (a_regions a) ->
  exists t l1 row l2 x values v, (disk (s_file s) = Ok t \/ exists d b, In (d, b) h /\ d (s_file s) = Ok t) /\
    t_rows t = (l1 ++ row :: l2)%list /\ describes t s r row /\ (forall other, In other (l1 ++ l2)%list -> ~ describes t s r other) /\
    series_of_row t row x /\ In (name, values) out /\ In (r, v) values /\
    convert uf sp s (data_years (a_start a) (a_end a) (a_dt a)) x = Ok v.
Proof.
  intros uf sp disk h a out name s r ND O Hs Hr.
  assert (N : map fst out = map fst (a_variables a)).
  { destruct (after_inv uf sp h _ _ Inv_empty) as (ver & I & _ & V). unfold data_store in O.
    pose proof (load_inv uf sp disk (data_years (a_start a) (a_end a) (a_dt a)) (a_regions a) (a_variables a) _ _ I) as A.
    destruct (load_variables _ _ _ _ _ _ (after uf sp h empty_caches)) as [c1 x1]. cbn [snd] in O. destruct A as [_ A]. rewrite A in O.
    apply (pure_load_spec _ _ _ _ _ _ _ O). }
  assert (M : In name (map fst out)) by (rewrite N; change name with (fst (name, s)); apply in_map, Hs).
  apply in_values in M as (values & M).
  assert (K : In r (map fst values)).
  { destruct values as [|[r0 v0] values0] eqn:EV.
    - exfalso. (* the values of no region: the list of regions is empty *)
      destruct (after_inv uf sp h _ _ Inv_empty) as (ver & I & _ & V). unfold data_store in O.
      pose proof (load_inv uf sp disk (data_years (a_start a) (a_end a) (a_dt a)) (a_regions a) (a_variables a) _ _ I) as A.
      destruct (load_variables _ _ _ _ _ _ (after uf sp h empty_caches)) as [c1 x1]. cbn [snd] in O. destruct A as [_ A]. rewrite A in O.
      destruct (pure_load_spec _ _ _ _ _ _ _ O) as [E W].
      assert (C : exists s', In ((name, s'), (name, [])) (combine (a_variables a) out)).
      { clear - E M. revert out E M. induction (a_variables a) as [|[n s0] l IH]; intros [|[n' w] out] E M; cbn in *; try contradiction; try discriminate.
        injection E as -> E. destruct M as [M|M]; [injection M as -> ->; eauto|]. destruct (IH _ E M) as [s' S]. eauto. }
      destruct C as [s' C]. destruct (W _ _ _ C) as [W1 _]. cbn in W1. rewrite <- W1 in Hr. destruct Hr.
    - destruct (C14_store_holds_file_data_pf uf sp disk h a out name s _ r0 v0 ND O Hs M (or_introl eq_refl)) as [E _].
      rewrite E. exact Hr. }
  apply in_values in K as (v & K).
  destruct (C14_store_holds_file_data_pf uf sp disk h a out name s _ r v ND O Hs M K) as [_ (t & x & T & F & C)].
  destruct (in_file_row _ _ _ _ F) as (l1 & row & l2 & A1 & A2 & A3 & A4).
  exists t, l1, row, l2, x, values, v. auto 10.
Qed.
(** Several rows that could be meant, or none, are refused. *)
Lemma C14_ambiguous_row_refused_pf : forall uf sp disk a out name s r t,
  NoDup (map fst (a_variables a)) -> In (name, s) (a_variables a) -> In r (a_regions a) -> disk (s_file s) = Ok t ->
  (forall row, In row (t_rows t) -> ~ describes t s r row) \/
  (exists l1 row l2 row' l3, t_rows t = (l1 ++ row :: l2 ++ row' :: l3)%list /\ describes t s r row /\ describes t s r row') ->
  snd (data_store disk uf sp a empty_caches) <> Ok out.
Proof.
  intros uf sp disk a out name s r t ND Hs Hr D H O.
  destruct (C14_configured_row_pf uf sp disk [] a out name s r ND O Hs Hr) as (t' & l1 & row & l2 & x & values & v & T & R & A1 & A2 & _).
  destruct T as [T|(d & b & [] & _)]. rewrite D in T. injection T as <-. destruct H as [H|(m1 & r1 & m2 & r2 & m3 & E & B1 & B2)].
  - apply (H row); [rewrite R; apply in_or_app; right; left; reflexivity|exact A1].
  - assert (L1 : nth_error (t_rows t) (List.length m1) = Some r1) by (rewrite E, nth_error_app2, PeanoNat.Nat.sub_diag; [reflexivity|lia]).
    assert (L2 : nth_error (t_rows t) (List.length m1 + S (List.length m2)) = Some r2).
    { rewrite E, nth_error_app2; [|lia]. replace (_ - _)%nat with (S (List.length m2)) by lia. cbn. rewrite nth_error_app2; [|lia].
      rewrite PeanoNat.Nat.sub_diag. reflexivity. }
    assert (U : forall i o, nth_error (t_rows t) i = Some o -> describes t s r o -> i = List.length l1).
    { intros i o I Do. rewrite R in I. destruct (PeanoNat.Nat.eq_dec i (List.length l1)) as [|N]; [assumption|exfalso].
      apply (A2 o); [|exact Do]. apply in_or_app. destruct (PeanoNat.Nat.lt_ge_cases i (List.length l1)) as [L|L].
      - left. rewrite nth_error_app1 in I by exact L. eapply nth_error_In, I.
      - right. rewrite nth_error_app2 in I by exact L. destruct (i - List.length l1)%nat as [|k] eqn:K; [lia|]. cbn in I. eapply nth_error_In, I. }
    pose proof (U _ _ L1 B1). pose proof (U _ _ L2 B2). lia.
Qed.
