(** C59: simulation mode imposes the given data. *)
From Verif Require Import PyBase NestedDict NestedDictFacts Parsers Config ConfigSpec ConfigBridge ConfigValues TimeGrid TimeGridLemmas DataStore DataStoreLemmas RegionalParams RegionalParamsLemmas
  Instantiate InstFacts InstantiateLemmas ModelFacts ModelSpec Build BuildLemmas SimMode SimModeLemmas Export ExportLemmas SimData.
From Coq Require Import QArith Qreals Reals Lra Lia DecimalNat DecimalString.
Import ListNotations.
Set Bullet Behavior "Strict Subproofs".
Open Scope string_scope.
Open Scope R_scope.

(** *** Lists of results *)
Lemma map_result_nth {A B} (f : A -> result B) l : forall l' i a, map_result f l = Ok l' -> nth_error l i = Some a -> exists b, f a = Ok b /\ nth_error l' i = Some b.
Proof.
  induction l as [|x l IH]; intros l' i a M N; [destruct i; discriminate|]. cbn [map_result] in M.
  apply bind_ok in M as (y & Y & M). apply bind_ok in M as (r & Rr & M). apply Ok_inj in M. subst l'.
  destruct i as [|i]; cbn in N |- *; [injection N as <-; eauto|eauto].
Qed.
Lemma map_result_from {A B} (f : A -> result B) l l' : map_result f l = Ok l' -> forall b, In b l' -> exists a, In a l /\ f a = Ok b.
Proof. intros M b Hb. apply SimModeLemmas.map_result_Forall2 in M. destruct (Forall2_In_r _ _ _ _ M Hb) as (a & A1 & A2). eauto. Qed.
Lemma map_result_to {A B} (f : A -> result B) l l' : map_result f l = Ok l' -> forall a, In a l -> exists b, In b l' /\ f a = Ok b.
Proof. intros M a Ha. apply SimModeLemmas.map_result_Forall2 in M. destruct (Forall2_In_l _ _ _ _ M Ha) as (b & B1 & B2). eauto. Qed.
Lemma nth_of_error {A} (l : list A) i x d : nth_error l i = Some x -> nth i l d = x /\ (i < List.length l)%nat.
Proof. intros E. split; [apply nth_error_nth, E|]. apply nth_error_Some. congruence. Qed.

(** *** The curve of a row passes through the row's cells *)
Lemma interp_at spline cols cells g i k c y w : through_points spline -> interp spline cols cells = Ok g ->
  List.length cells = List.length cols -> nth_error cols i = Some k -> nth_error cells i = Some c -> label_year k = Ok y -> number c = Ok w -> g y = w.
Proof.
  intros TP I L K C Y W. unfold interp in I. apply bind_ok in I as (vs & V & I). apply bind_ok in I as (ys & YS & I).
  destruct (map_result_nth _ _ _ _ _ V C) as (w' & W1 & W2). rewrite W in W1. apply Ok_inj in W1. subst w'.
  destruct (map_result_nth _ _ _ _ _ YS K) as (y' & Y1 & Y2). rewrite Y in Y1. apply Ok_inj in Y1. subst y'.
  pose proof (map_result_length _ _ _ V) as LV. pose proof (map_result_length _ _ _ YS) as LY.
  destruct (rev ys) as [|last rest]; [discriminate|]. apply bind_ok in I as (ext & E & I).
  unfold extrapolate in E. destruct (rev vs) as [|v1 [|v0 ?]]; try discriminate. destruct (rev ys) as [|y1 [|y0 ?]]; try discriminate. apply Ok_inj in E. subst ext.
  destruct (nth_of_error _ _ _ 0 W2) as [<- N1]. destruct (nth_of_error _ _ _ 0 Y2) as [<- N2].
  assert (LX : forall c t v l, List.length (extrapolate_from c t v l) = List.length l).
  { clear. intros c0 t0 v2 l2. revert t0 v2. induction l2 as [|? ? IH]; intros; cbn; [reflexivity|rewrite IH; reflexivity]. }
  rewrite <- (app_nth1 ys (extra_sim_years last) 0 N2). erewrite (TP _ _ _ I).
  - rewrite app_nth1 by exact N1. reflexivity.
  - rewrite !app_length, LX. lia.
  - rewrite app_length. lia.
Qed.

Lemma get_region_some fs r g : get_region fs r = Some g -> In (KStr r, g) fs.
Proof.
  unfold get_region. destruct (find _ _) as [[k h]|] eqn:F; [|discriminate]. intros E. cbn in E. injection E as ->.
  apply find_some in F as [F1 F2]. cbn in F2. apply key_eqb_eq in F2. subst k. apply in_rev, F1.
Qed.
Lemma interpolating_rows spline f fs : interpolating spline f = Ok fs -> forall k g, In (k, g) fs ->
  exists cells, In (k, cells) (f_rows f) /\ interp spline (f_columns f) cells = Ok g.
Proof.
  unfold interpolating. destruct (rev (f_columns f)) as [|last r]; [discriminate|]. intros H. apply bind_ok in H as (z & _ & H).
  intros k g I. destruct (map_result_from _ _ _ H _ I) as ([k' cells] & A & B). cbn [fst snd] in B. apply bind_ok in B as (g' & B1 & B2).
  apply Ok_inj in B2. injection B2 as -> ->. eauto.
Qed.

(** *** Settings *)
Lemma sim_of_on disk spline params s : sim_of disk spline params = Ok (Some s) ->
  exists d fixed dc, lookup params ["simulation"; "constraint_variables"] = Some (VDict d) /\ items (VDict d) = Ok fixed /\
    map_result (fun kv => do x <- get_interp_data disk spline (fst kv) (snd kv); Ok (fst kv, x)) fixed = Ok (sim_fixed s) /\
    lookup params ["simulation"; "deactivated_constraints"] = Some (VList dc) /\ map_result str_of dc = Ok (sim_deactivated s).
Proof.
  unfold sim_of. intros H. apply bind_ok in H as (mode & _ & H). destruct (py_truth mode); [|discriminate].
  apply bind_ok in H as (cv & C & H). apply bind_ok in H as (its & I & H). apply bind_ok in H as (fx & F & H). apply bind_ok in H as (dc & D & H).
  apply bind_ok in H as (l & L & H). apply bind_ok in H as (ns & N & H). apply Ok_inj in H. injection H as ->.
  destruct cv as [| | | | | |d]; try discriminate. unfold as_list in L. destruct dc as [| | | | |dc|]; try discriminate. apply Ok_inj in L. subst l.
  apply config_lookup in C, D. exists d, its, dc. auto.
Qed.
Lemma lookup_step v p k : lookup v (p ++ [k])%list = match lookup v p with Some (VDict d) => dget d (KStr k) | _ => None end.
Proof.
  revert v. induction p as [|a p IH]; intros v.
  - cbn [app lookup]. destruct v; try reflexivity. destruct (dget d (KStr k)); reflexivity.
  - cbn [app lookup]. destruct v; try reflexivity. destruct (dget d (KStr a)); [apply IH|reflexivity].
Qed.
Lemma dget_in' {A} (d : list (key * A)) k v : dget d k = Some v -> In (k, v) d.
Proof.
  induction d as [|[k' v'] d IH]; cbn; [discriminate|]. destruct (key_eqb k' k) eqn:E; intros H.
  - apply key_eqb_eq in E. subst k'. injection H as ->. left. reflexivity.
  - right. auto.
Qed.
Lemma sim_entry disk spline params s name w : sim_of disk spline params = Ok (Some s) ->
  lookup params ["simulation"; "constraint_variables"; name] = Some w ->
  exists data, In (name, data) (sim_fixed s) /\ get_interp_data disk spline name w = Ok data.
Proof.
  intros H L. destruct (sim_of_on _ _ _ _ H) as (d & its & dc & L1 & I & F & _).
  change ["simulation"; "constraint_variables"; name] with (["simulation"; "constraint_variables"] ++ [name])%list in L.
  rewrite lookup_step, L1 in L. apply dget_in' in L. unfold items in I.
  destruct (map_result_to _ _ _ I _ L) as ([n w'] & B1 & B2). cbn in B2. apply Ok_inj in B2. injection B2 as -> ->.
  destruct (map_result_to _ _ _ F _ B1) as ([n' data] & C1 & C2). cbn [fst snd] in C2. apply bind_ok in C2 as (x & X & C2). apply Ok_inj in C2. injection C2 as -> ->. eauto.
Qed.
(** The numbers of the automatically named constraints are not among the deactivated names. *)
Definition no_number_deactivated (params : pyval) : Prop :=
  forall dc k, lookup params ["simulation"; "deactivated_constraints"] = Some (VList dc) -> ~ In (VStr (str_nat k)) dc.
Lemma no_number disk spline params s : sim_of disk spline params = Ok (Some s) -> no_number_deactivated params -> forall k, ~ In (str_nat k) (sim_deactivated s).
Proof.
  intros H N k I. destruct (sim_of_on _ _ _ _ H) as (_ & _ & dc & _ & _ & _ & L & M). apply (N dc k L).
  destruct (map_result_from _ _ _ M _ I) as (v & V1 & V2). destruct v; try discriminate. apply Ok_inj in V2. subst. exact V1.
Qed.

(** *** Data given as a dictionary *)
Lemma frame_dict d f : frame_of_dict d = Ok f -> f_columns f = map fst d /\
  forall k cells, In (k, cells) (f_rows f) -> List.length cells = List.length d /\
    forall i y c v, nth_error d i = Some (y, VDict c) -> dget c k = Some v -> nth_error cells i = Some v.
Proof.
  unfold frame_of_dict. intros H. apply bind_ok in H as (cols & C & H). apply Ok_inj in H. subst f. cbn [f_columns f_rows]. split; [reflexivity|].
  intros k cells I. apply in_map_iff in I as (r & E & _). injection E as -> <-. rewrite map_length. split; [apply (map_result_length _ _ _ C)|].
  intros i y c v N G. destruct (map_result_nth _ _ _ _ _ C N) as (c' & C1 & C2). cbn in C1. apply Ok_inj in C1. subst c'.
  rewrite nth_error_map. etransitivity; [apply f_equal; exact C2|]. cbn. rewrite G. reflexivity.
Qed.
Lemma dict_data_at disk spline name d data r g i y c v q w : through_points spline -> get_interp_data disk spline name (VDict d) = Ok data -> data r = Some g ->
  nth_error d i = Some (y, VDict c) -> dget c (KStr r) = Some v -> label_year y = Ok q -> number v = Ok w -> g q = w.
Proof.
  intros TP G D N GV LY NV. unfold get_interp_data in G. apply bind_ok in G as (f & F & G). apply bind_ok in G as (fs & I & G). apply Ok_inj in G. subst data.
  apply get_region_some in D. destruct (interpolating_rows _ _ _ I _ _ D) as (cells & R1 & R2). destruct (frame_dict _ _ F) as [FC FR].
  destruct (FR _ _ R1) as [L K]. rewrite FC in R2. eapply (interp_at spline _ _ _ i); eauto.
  - rewrite L, map_length. reflexivity.
  - rewrite nth_error_map, N. reflexivity.
Qed.

(** The key of a column stands for a year: 2030, "2030", "2032.5" or "2.03e3"; the value is a python number. *)
Definition says_year (label : key) (y : R) : Prop :=
  match label with KInt z => y = IZR z | KStr s => exists q, float_text s q /\ ConfigValues.in_range q /\ y = Q2R q end.
Definition says_number (value : pyval) (w : R) : Prop :=
  match value with VInt z => w = IZR z | VFloat (FFin q) => w = Q2R q | _ => False end.
Lemma says_year_of label y : says_year label y -> label_year label = Ok y.
Proof.
  destruct label as [s|z]; cbn [says_year label_year]; [|intros ->; reflexivity].
  intros (q & F & R & ->). destruct (float_text_parse _ _ F R) as (q' & P & E). unfold year_of. unfold py_float in P.
  destruct (parse_float_str s) as [f|]; [|discriminate P]. injection P as ->. rewrite (Qeq_eqR _ _ E). reflexivity.
Qed.
Lemma says_number_of value w : says_number value w -> number value = Ok w.
Proof. destruct value as [| | |[]| | |]; cbn [says_number number]; try contradiction; intros ->; reflexivity. Qed.

(** A number given for a region and a model year is imposed up to 0.001. *)
Lemma C59_given_values_imposed_pf : forall disk spline params s extra n m p active v x given label column r value w t,
  through_points spline -> sim_of disk spline params = Ok (Some s) -> no_number_deactivated params ->
  create_instance p extra n m (Some s) = Ok active -> solution_of p active v ->
  lookup params ["simulation"; "constraint_variables"; rname x] = Some (VDict given) ->
  In (label, VDict column) given -> dget column (KStr r) = Some value -> says_number value w ->
  model_step p t -> In r (regions p) -> says_year label (year p t) ->
  w - 1/1000 <= rval v x t r <= w + 1/1000.
Proof.
  intros disk spline params s extra n m p active v x given label column r value w t TP S ND C SO L I G N MT MR LY. apply says_year_of in LY. apply says_number_of in N.
  destruct (sim_entry _ _ _ _ _ _ S L) as (data & D1 & D2).
  destruct (C47_fixed_regional_variable_pf _ _ _ _ _ _ _ _ _ _ _ C SO D1 (no_number _ _ _ _ S ND) MT MR) as (g & G1 & G2).
  apply In_nth_error in I as (i & I). rewrite (dict_data_at _ _ _ _ _ _ _ _ _ _ _ _ _ TP D2 G1 I G LY N) in G2. exact G2.
Qed.
Lemma C59_given_global_values_imposed_pf : forall disk spline params s extra n m p active v g given label column value w t,
  through_points spline -> sim_of disk spline params = Ok (Some s) -> no_number_deactivated params ->
  create_instance p extra n m (Some s) = Ok active -> solution_of p active v ->
  lookup params ["simulation"; "constraint_variables"; gname g] = Some (VDict given) ->
  In (label, VDict column) given -> dget column (KStr "Global") = Some value -> says_number value w ->
  model_step p t -> says_year label (year p t) ->
  w - 1/1000 <= gval v g t <= w + 1/1000.
Proof.
  intros disk spline params s extra n m p active v x given label column value w t TP S ND C SO L I G N MT LY. apply says_year_of in LY. apply says_number_of in N.
  destruct (sim_entry _ _ _ _ _ _ S L) as (data & D1 & D2).
  destruct (C47_fixed_global_variable_pf _ _ _ _ _ _ _ _ _ _ C SO D1 (no_number _ _ _ _ S ND) MT) as (g & G1 & G2).
  apply In_nth_error in I as (i & I). rewrite (dict_data_at _ _ _ _ _ _ _ _ _ _ _ _ _ TP D2 G1 I G LY N) in G2. exact G2.
Qed.

(** *** Year labels are read back *)
Lemma uint_digits d : Forall ConfigValues.digit (list_ascii_of_string (NilEmpty.string_of_uint d)).
Proof. induction d; cbn; constructor; auto; unfold ConfigValues.digit; cbn; lia. Qed.
Lemma uint_value d : forall n, digits_value (list_ascii_of_string (NilEmpty.string_of_uint d)) (Z.of_nat n) = Z.of_nat (Nat.of_uint_acc d n).
Proof.
  induction d; intros n; cbn [NilEmpty.string_of_uint list_ascii_of_string digits_value Nat.of_uint_acc]; [reflexivity| | | | | | | | | |];
    rewrite <- IHd; f_equal; rewrite Nat.tail_mul_spec; cbn [nat_of_ascii]; cbn -[Z.mul Z.of_nat Nat.mul]; rewrite ?Nat2Z.inj_succ, Nat2Z.inj_mul; lia.
Qed.
Lemma str_nat_text n : digit_text (list_ascii_of_string (str_nat n)) /\ digits_value (list_ascii_of_string (str_nat n)) 0 = Z.of_nat n.
Proof.
  unfold str_nat. pose proof (Unsigned.of_to n) as E. set (d := Nat.to_uint n) in *.
  assert (N : d = Decimal.Nil \/ NilZero.string_of_uint d = NilEmpty.string_of_uint d /\ d <> Decimal.Nil) by (destruct d; auto; right; split; (reflexivity || discriminate)).
  destruct N as [N|[N1 N2]].
  - rewrite N in *. cbn in E. subst n. cbn. split; [split; [discriminate|constructor; [unfold ConfigValues.digit; cbn; lia|constructor]]|reflexivity].
  - rewrite N1. split; [split; [destruct d; cbn; congruence|apply uint_digits]|]. rewrite <- E. apply (uint_value d 0).
Qed.
Lemma list_ascii_app a b : list_ascii_of_string (a ++ b)%string = (list_ascii_of_string a ++ list_ascii_of_string b)%list.
Proof. induction a as [|c a IH]; cbn; [reflexivity|rewrite IH; reflexivity]. Qed.
Lemma digit_code n : (n < 10)%nat -> exists c, list_ascii_of_string (Export.digit n) = [c] /\ ConfigValues.digit c /\ (Z.of_nat (nat_of_ascii c) - 48 = Z.of_nat n)%Z.
Proof.
  intros L. do 10 (destruct n as [|n]; [eexists; split; [reflexivity|split; [unfold ConfigValues.digit; cbn; lia|reflexivity]]|]). lia.
Qed.
Lemma digits_value_app a b n : digits_value (a ++ b)%list n = digits_value b (digits_value a n).
Proof. revert n. induction a as [|c a IH]; intros n; cbn; [reflexivity|apply IH]. Qed.
Lemma format_text n : exists q, float_text (format_hundredths n) q /\ (q == inject_Z (Z.of_nat n) / 100)%Q.
Proof.
  unfold format_hundredths. destruct (str_nat_text (n / 100)) as [T V]. pose proof (Nat.div_mod n 100 ltac:(lia)) as DM. pose proof (Nat.mod_upper_bound n 100 ltac:(lia)) as MB.
  set (a := (n / 100)%nat) in *. set (f := (n mod 100)%nat) in *. clearbody a f.
  destruct (Nat.eqb f 0) eqn:E0.
  - apply Nat.eqb_eq in E0. exists (inject_Z (Z.of_nat a)). rewrite app_nil_str. split.
    + rewrite <- V. apply float_int, int_pos; [reflexivity|exact T].
    + assert (Z.of_nat n = 100 * Z.of_nat a)%Z as -> by lia. rewrite inject_Z_mult. field.
  - apply Nat.eqb_neq in E0. pose proof (Nat.div_mod f 10 ltac:(lia)) as DF. pose proof (Nat.mod_upper_bound f 10 ltac:(lia)) as MF.
    assert (F10 : (f / 10 < 10)%nat) by (apply Nat.div_lt_upper_bound; lia).
    destruct (digit_code _ F10) as (c1 & C1 & D1 & V1). destruct (digit_code _ MF) as (c2 & C2 & D2 & V2).
    set (f1 := (f / 10)%nat) in *. set (f2 := (f mod 10)%nat) in *. clearbody f1 f2.
    destruct (Nat.eqb f2 0) eqn:E2.
    + apply Nat.eqb_eq in E2. exists (decimal (list_ascii_of_string (str_nat a)) [c1]). split.
      * apply float_pos; [rewrite list_ascii_app; cbn [append list_ascii_of_string]; rewrite app_nil_str, C1; reflexivity|exact T|split; [discriminate|auto]].
      * unfold decimal. cbn [digits_value List.length]. rewrite V, V1. change (10 ^ Z.of_nat 1)%Z with 10%Z.
        assert (Z.of_nat n = 10 * (10 * Z.of_nat a + Z.of_nat f1))%Z as -> by lia. rewrite inject_Z_mult. field.
    + exists (decimal (list_ascii_of_string (str_nat a)) [c1; c2]). split.
      * apply float_pos; [rewrite list_ascii_app; cbn [append list_ascii_of_string]; rewrite list_ascii_app, C1, C2; reflexivity|exact T|split; [discriminate|auto]].
      * unfold decimal. cbn [digits_value List.length]. rewrite V, V1, V2. change (10 ^ Z.of_nat 2)%Z with 100%Z.
        assert (Z.of_nat n = 10 * (10 * Z.of_nat a + Z.of_nat f1) + Z.of_nat f2)%Z as -> by lia. reflexivity.
Qed.
Lemma label_read rnd y : (forall z, rnd (IZR z) = z) -> 1000 <= y < 10000 -> (exists z, 100 * y = IZR z) -> year_of (year_label rnd y) = Ok y.
Proof.
  intros RN YB (z & Z). unfold year_label. rewrite Z, RN.
  assert (ZB : (100000 <= z < 1000000)%Z) by (split; [apply le_IZR|apply lt_IZR]; lra).
  destruct (format_text (Z.to_nat z)) as (q & F & Q). rewrite Z2Nat.id in Q by lia.
  destruct (float_text_parse _ _ F) as (q' & P & Q').
  { apply (in_range_eq (inject_Z z / 100)%Q); [symmetry; exact Q|]. unfold in_range. assert (B1 : (inject_Z 0 <= inject_Z z / 100)%Q). { apply Qle_shift_div_l; [reflexivity|]. unfold Qle; cbn; lia. }
    assert (B2 : (inject_Z z / 100 < inject_Z 10000)%Q). { apply Qlt_shift_div_r; [reflexivity|]. unfold Qlt; cbn. lia. }
    split; [eapply Qlt_le_trans; [|exact B1]; reflexivity|eapply Qlt_trans; [exact B2|reflexivity]]. }
  unfold year_of. unfold py_float in P. destruct (parse_float_str _) as [x|]; [|discriminate]. apply Ok_inj in P. subst x.
  f_equal. rewrite (Qeq_eqR _ _ Q'), (Qeq_eqR _ _ Q). unfold Qdiv. rewrite Q2R_mult, Q2R_inv by (intros H; discriminate H). unfold Q2R at 1 2. cbn [Qnum Qden inject_Z]. lra.
Qed.

(** *** Data given as a file *)
Lemma kept_split cols (row : list pyval) : List.length row = List.length cols ->
  filter kept_column cols = map fst (filter (fun cv => kept_column (fst cv)) (combine cols row)).
Proof.
  revert row. induction cols as [|c cols IH]; intros [|x row] L; try discriminate; [reflexivity|]. cbn in L. injection L as L.
  cbn [combine filter fst]. destruct (kept_column c); cbn [map fst]; rewrite (IH _ L); reflexivity.
Qed.
Lemma index_nth_error c l n : index_of c l = Ok n -> nth_error l n = Some c.
Proof.
  revert n. induction l as [|x l IH]; intros n H; [discriminate|]. cbn in H. destruct (String.eqb x c) eqn:E.
  - apply Ok_inj in H. subst n. apply String.eqb_eq in E. subst. reflexivity.
  - apply bind_ok in H as (m & M & H). apply Ok_inj in H. subst n. cbn. auto.
Qed.
Lemma combine_in {A B} (l : list A) (l' : list B) i a b : nth_error l i = Some a -> nth_error l' i = Some b -> In (a, b) (combine l l').
Proof. revert l l'. induction i as [|i IH]; intros [|x l] [|y l'] H1 H2; try discriminate; cbn in *; [left; congruence|right; eauto]. Qed.
Lemma year_kept label y : year_of label = Ok y -> kept_column label = true.
Proof.
  intros Y. unfold kept_column. destruct (String.eqb label "Variable") eqn:E1; [apply String.eqb_eq in E1; subst; discriminate Y|].
  destruct (String.eqb label "Unit") eqn:E2; [apply String.eqb_eq in E2; subst; discriminate Y|].
  destruct (String.eqb label "Region") eqn:E3; [apply String.eqb_eq in E3; subst; discriminate Y|]. reflexivity.
Qed.
Lemma table_data_at disk spline name path tab data r g label y : through_points spline -> disk path = Ok tab -> rectangular tab ->
  get_interp_data disk spline name (VStr path) = Ok data -> data r = Some g -> year_of label = Ok y ->
  exists row, In row (t_rows tab) /\ cell tab row "Variable" = Ok (VStr name) /\ cell tab row "Region" = Ok (VStr r) /\
    forall value w, cell tab row label = Ok value -> number value = Ok w -> g y = w.
Proof.
  intros TP D RC G DG Y. unfold get_interp_data in G. rewrite D in G. cbn [bind] in G. apply bind_ok in G as (f & F & G). apply bind_ok in G as (fs & I & G).
  apply Ok_inj in G. subst data. apply get_region_some in DG. destruct (interpolating_rows _ _ _ I _ _ DG) as (cells & R1 & R2).
  unfold frame_of_table in F. apply bind_ok in F as (n & N & F). apply bind_ok in F as (m & M & F). apply bind_ok in F as (rs & FR & F). apply Ok_inj in F. subst f.
  cbn [f_rows f_columns] in R1, R2. destruct (map_result_from _ _ _ FR _ R1) as (row & W1 & W2). apply filter_In in W1 as [W0 W1].
  apply bind_ok in W2 as (k & K & W2). apply Ok_inj in W2. injection W2 as W2 W3. subst k cells. exists row. pose proof (RC _ W0) as LR.
  split; [exact W0|]. split; [|split].
  - unfold cell. rewrite N. cbn [bind]. unfold cell_is in W1. destruct (nth_error row n) as [[]|]; try discriminate. apply String.eqb_eq in W1. subst. reflexivity.
  - unfold cell. rewrite M. cbn [bind]. pose proof (index_nth _ _ _ M) as LT. rewrite <- LR in LT. rewrite (nth_error_nth' row nan LT).
    unfold region_key in K. destruct (nth m row nan); try discriminate; apply Ok_inj in K; try discriminate. injection K as K. subst. reflexivity.
  - intros value w C W. unfold cell in C. apply bind_ok in C as (j & J & C). destruct (nth_error row j) as [val|] eqn:V; [|discriminate]. apply Ok_inj in C. subst val.
    pose proof (combine_in _ _ _ _ _ (index_nth_error _ _ _ J) V) as IC.
    assert (IF : In (label, value) (filter (fun cv => kept_column (fst cv)) (combine (t_columns tab) row))) by (apply filter_In; split; [exact IC|apply (year_kept _ _ Y)]).
    apply In_nth_error in IF as (i & IF). unfold kept_cells in R2. rewrite (kept_split _ _ LR) in R2.
    eapply (interp_at spline _ _ _ i (KStr label) value); [exact TP|exact R2| | | |exact Y|exact W].
    + rewrite !map_length. reflexivity.
    + rewrite map_map, nth_error_map, IF. reflexivity.
    + rewrite nth_error_map, IF. reflexivity.
Qed.

(** The number of a file in the row of the variable and the region and the column of a model year is imposed up to 0.001
    (if two rows carry the variable and the region, the last one is). *)
Definition only_row (tab : table) (name r : string) (row : list pyval) : Prop :=
  forall row', In row' (t_rows tab) -> cell tab row' "Variable" = Ok (VStr name) -> cell tab row' "Region" = Ok (VStr r) -> row' = row.
Lemma file_values_imposed : forall disk spline params s extra n m p active v x path tab row label r value w t,
  through_points spline -> sim_of disk spline params = Ok (Some s) -> no_number_deactivated params ->
  create_instance p extra n m (Some s) = Ok active -> solution_of p active v ->
  lookup params ["simulation"; "constraint_variables"; rname x] = Some (VStr path) -> disk path = Ok tab -> rectangular tab ->
  only_row tab (rname x) r row -> cell tab row label = Ok value -> number value = Ok w ->
  model_step p t -> In r (regions p) -> year_of label = Ok (year p t) ->
  w - 1/1000 <= rval v x t r <= w + 1/1000.
Proof.
  intros disk spline params s extra n m p active v x path tab row label r value w t TP S ND C SO L D RC U CV N MT MR LY.
  destruct (sim_entry _ _ _ _ _ _ S L) as (data & D1 & D2).
  destruct (C47_fixed_regional_variable_pf _ _ _ _ _ _ _ _ _ _ _ C SO D1 (no_number _ _ _ _ S ND) MT MR) as (g & G1 & G2).
  destruct (table_data_at _ _ _ _ _ _ _ _ _ _ TP D RC D2 G1 LY) as (row' & R1 & R2 & R3 & R4).
  rewrite (U _ R1 R2 R3) in R4. rewrite (R4 _ _ CV N) in G2. exact G2.
Qed.
Lemma C59_file_values_imposed_pf : forall disk spline params s extra n m p active v x path tab row label r value w t,
  through_points spline -> sim_of disk spline params = Ok (Some s) -> no_number_deactivated params ->
  create_instance p extra n m (Some s) = Ok active -> solution_of p active v ->
  lookup params ["simulation"; "constraint_variables"; rname x] = Some (VStr path) -> disk path = Ok tab -> rectangular tab ->
  only_row tab (rname x) r row -> cell tab row label = Ok value -> says_number value w ->
  model_step p t -> In r (regions p) -> says_year (KStr label) (year p t) ->
  w - 1/1000 <= rval v x t r <= w + 1/1000.
Proof.
  intros disk spline params s extra n m p active v x path tab row label r value w t TP S ND C SO L D RC U CV N MT MR LY.
  apply says_year_of in LY. apply says_number_of in N. eapply file_values_imposed; eassumption.
Qed.
Lemma C59_file_global_values_imposed_pf : forall disk spline params s extra n m p active v g path tab row label value w t,
  through_points spline -> sim_of disk spline params = Ok (Some s) -> no_number_deactivated params ->
  create_instance p extra n m (Some s) = Ok active -> solution_of p active v ->
  lookup params ["simulation"; "constraint_variables"; gname g] = Some (VStr path) -> disk path = Ok tab -> rectangular tab ->
  only_row tab (gname g) "Global" row -> cell tab row label = Ok value -> says_number value w ->
  model_step p t -> says_year (KStr label) (year p t) ->
  w - 1/1000 <= gval v g t <= w + 1/1000.
Proof.
  intros disk spline params s extra n m p active v x path tab row label value w t TP S ND C SO L D RC U CV N MT LY. apply says_year_of in LY. apply says_number_of in N.
  destruct (sim_entry _ _ _ _ _ _ S L) as (data & D1 & D2).
  destruct (C47_fixed_global_variable_pf _ _ _ _ _ _ _ _ _ _ C SO D1 (no_number _ _ _ _ S ND) MT) as (g & G1 & G2).
  destruct (table_data_at _ _ _ _ _ _ _ _ _ _ TP D RC D2 G1 LY) as (row' & R1 & R2 & R3 & R4).
  rewrite (U _ R1 R2 R3) in R4. rewrite (R4 _ _ CV N) in G2. exact G2.
Qed.

(** *** The file of a saved run *)
Lemma round_exact rnd : (forall x, Rabs (IZR (rnd x) - x) <= 1/2) -> forall z, rnd (IZR z) = z.
Proof.
  intros H z. specialize (H (IZR z)). apply rabs_inv in H. rewrite <- minus_IZR in H.
  assert (A : (-1 < rnd (IZR z) - z)%Z) by (apply lt_IZR; lra). assert (B : (rnd (IZR z) - z < 1)%Z) by (apply lt_IZR; lra). lia.
Qed.
Lemma index_unique c l i : NoDup l -> nth_error l i = Some c -> index_of c l = Ok i.
Proof.
  revert i. induction l as [|x l IH]; intros i N E; [destruct i; discriminate|]. inversion N; subst. destruct i as [|i]; cbn in E |- *.
  - injection E as ->. rewrite String.eqb_refl. reflexivity.
  - destruct (String.eqb x c) eqn:Q; [apply String.eqb_eq in Q; subst; apply nth_error_In in E; contradiction|]. rewrite (IH _ H2 E). reflexivity.
Qed.
Lemma NoDup_map_inv_in {A B} (f : A -> B) l : NoDup (map f l) -> forall a b, In a l -> In b l -> f a = f b -> a = b.
Proof.
  induction l as [|x l IH]; intros N a b Ia Ib E; [destruct Ia|]. inversion N; subst. destruct Ia as [<-|Ia], Ib as [<-|Ib]; auto.
  - exfalso. apply H1. rewrite E. apply in_map, Ib.
  - exfalso. apply H1. rewrite <- E. apply in_map, Ia.
Qed.
(** What the saved-run theorems ask of the time grid and the printing of years: every model year has at most two decimals. *)
Definition two_decimals (p : pars) : Prop := forall t, model_step p t -> 1000 <= year p t < 10000 /\ exists z, 100 * year p t = IZR z.
Section Saved.
  Variables (p : pars) (unit_of : string -> string) (rnd : R -> Z) (sixg : R -> Q) (v : point).
  Hypothesis RN : forall x, Rabs (IZR (rnd x) - x) <= 1/2.
  Hypothesis YD : two_decimals p.
  Hypothesis DT : 5/10 <= dt p.
  Local Notation tab := (saved_table p unit_of rnd sixg v).
  Lemma saved_cols : t_columns tab = columns rnd p.
  Proof. reflexivity. Qed.
  Lemma saved_rows : t_rows tab = map (saved_row sixg) (rows p unit_of v).
  Proof. reflexivity. Qed.
  Lemma saved_row_length rr : List.length (saved_row sixg rr) = (3 + List.length (r_values rr))%nat.
  Proof. unfold saved_row. rewrite app_length, map_length. reflexivity. Qed.
  Lemma saved_rect : rectangular tab.
  Proof.
    intros row H. rewrite saved_rows in H. apply in_map_iff in H as (rr & E & H). rewrite <- E, saved_row_length, saved_cols.
    symmetry. exact (proj1 (proj2 (C48_table_rectangular_pf p unit_of v rnd rr H))).
  Qed.
  Lemma saved_label t : model_step p t -> year_of (year_label rnd (year p t)) = Ok (year p t).
  Proof. intros M. destruct (YD _ M) as [B I]. apply label_read; [apply round_exact, RN|exact B|exact I]. Qed.
  Lemma saved_columns : NoDup (columns rnd p).
  Proof.
    assert (K : forall c, In c (year_labels rnd p) -> kept_column c = true).
    { intros c I. unfold year_labels, steps in I. apply in_map_iff in I as (t & <- & T). apply in_seq in T. apply (year_kept _ (year p t)), saved_label. unfold model_step. lia. }
    unfold columns. cbn [app].
    assert (ND : NoDup (year_labels rnd p)).
    { apply C48_year_labels_distinct_pf; auto. assert (M : model_step p 0) by (unfold model_step; lia). destruct (YD _ M) as [B _]. unfold year in B. cbn [INR] in B. lra. }
    constructor; [|constructor; [|constructor; [|exact ND]]].
    - intros [H|[H|H]]; [discriminate H|discriminate H|apply K in H; discriminate H].
    - intros [H|H]; [discriminate H|apply K in H; discriminate H].
    - intros H. apply K in H. discriminate H.
  Qed.
  Lemma saved_cell rr t : In rr (rows p unit_of v) -> model_step p t ->
    cell tab (saved_row sixg rr) (year_label rnd (year p t)) = Ok (VFloat (FFin (sixg (nth t (r_values rr) 0)))).
  Proof.
    intros I M. unfold cell. assert (N : nth_error (columns rnd p) (3 + t) = Some (year_label rnd (year p t))).
    { unfold columns. cbn [app nth_error plus]. unfold year_labels. rewrite nth_error_map, nth_error_nth' with (d := 0%nat) by (unfold steps; rewrite seq_length; unfold model_step in M; lia).
      unfold steps. rewrite seq_nth by (unfold model_step in M; lia). reflexivity. }
    rewrite saved_cols. rewrite (index_unique _ _ _ saved_columns N). cbn [bind plus nth_error saved_row app].
    pose proof (proj1 (C48_table_rectangular_pf p unit_of v rnd _ I)) as L. rewrite nth_error_map, nth_error_nth' with (d := 0) by (rewrite L; unfold model_step in M; lia). reflexivity.
  Qed.
  Lemma saved_name rr : cell tab (saved_row sixg rr) "Variable" = Ok (VStr (r_variable rr)) /\ cell tab (saved_row sixg rr) "Region" = Ok (VStr (r_region rr)).
  Proof. split; reflexivity. Qed.
  Hypothesis ND : NoDup (regions p).
  Lemma saved_unique rr : In rr (rows p unit_of v) -> only_row tab (r_variable rr) (r_region rr) (saved_row sixg rr).
  Proof.
    intros I row H V Rg. rewrite saved_rows in H. apply in_map_iff in H as (r2 & <- & H). destruct (saved_name r2) as [N1 N2]. rewrite N1 in V. rewrite N2 in Rg.
    apply Ok_inj in V, Rg. injection V as V. injection Rg as Rg. f_equal. eapply (NoDup_map_inv_in (fun row => (r_variable row, r_region row))); [apply (C48_rows_distinct_pf p unit_of v ND)|exact H|exact I|].
    cbn beta. rewrite V, Rg. reflexivity.
  Qed.
End Saved.
Lemma fixed_declared p s cs name data : fixed_constraints p s = Ok cs -> In (name, data) (sim_fixed s) -> exists w, vname w = name /\ declared p w = true.
Proof.
  unfold fixed_constraints. intros F I. apply bind_ok in F as (ls & E & _). destruct (map_result_to _ _ _ E _ I) as (l & _ & L).
  destruct (fixed_cases _ _ _ _ L) as [(x & W & _)|(g & W & _)]; [exists (Rv x)|exists (Gv g)]; exact (find_var_spec _ _ _ W).
Qed.
Lemma number_float q : number (VFloat (FFin q)) = Ok (Q2R q).
Proof. reflexivity. Qed.
Lemma saved_nth {A} (f : nat -> A) d n t : (t <= n)%nat -> nth t (map f (seq 0 (S n))) d = f t.
Proof. intros L. rewrite nth_indep with (d' := f 0%nat) by (rewrite map_length, seq_length; lia). rewrite map_nth, seq_nth by lia. reflexivity. Qed.

(** A feasible point satisfies the model of a simulation run that imposes variables from the point's own saved file, if
    their values are below 1000 (so that six printed digits are precise enough). *)
Lemma C59_saved_run_reproduced_pf : forall disk spline params s extra n m p active v unit_of rnd sixg imposed,
  through_points spline -> (forall y, Rabs (IZR (rnd y) - y) <= 1/2) -> (forall a, Rabs a < 1000 -> Rabs (Q2R (sixg a) - a) <= 1/2000) ->
  two_decimals p -> 5/10 <= dt p -> NoDup (regions p) ->
  sim_of disk spline params = Ok (Some s) -> create_instance p extra n m (Some s) = Ok active ->
  lookup params ["simulation"; "constraint_variables"] = Some (VDict imposed) ->
  (forall k w, In (k, w) imposed -> exists path, w = VStr path /\ disk path = Ok (saved_table p unit_of rnd sixg v)) ->
  (forall x t r, In (KStr (rname x)) (map fst imposed) -> model_step p t -> In r (regions p) -> Rabs (rval v x t r) < 1000) ->
  (forall g t, In (KStr (gname g)) (map fst imposed) -> model_step p t -> Rabs (gval v g t) < 1000) ->
  feasible p v -> solution_of p active v.
Proof.
  intros disk spline params s extra n m p active v unit_of rnd sixg imposed TP RN SG YD DT ND S C L P VR VG F.
  assert (SPLIT : forall name data, In (name, data) (sim_fixed s) -> exists path, get_interp_data disk spline name (VStr path) = Ok data /\
            disk path = Ok (saved_table p unit_of rnd sixg v) /\ In (KStr name) (map fst imposed)).
  { intros name data I. destruct (sim_of_on _ _ _ _ S) as (d & its & dc & L1 & IT & FX & _). rewrite L in L1. injection L1 as <-.
    destruct (map_result_from _ _ _ FX _ I) as ([nm w] & W1 & W2). cbn [fst snd] in W2. apply bind_ok in W2 as (dd & W2 & W3). apply Ok_inj in W3. injection W3 as W3 W4. subst nm dd.
    unfold items in IT. destruct (map_result_from _ _ _ IT _ W1) as ([k w'] & K1 & K2). cbn [fst snd] in K2. destruct k as [k|]; [|discriminate]. apply Ok_inj in K2. injection K2 as K2 K3. subst k w'.
    destruct (P _ _ K1) as (path & -> & D). exists path. split; [exact W2|]. split; [exact D|]. apply (in_map fst _ _ K1). }
  destruct (create_sim _ _ _ _ _ _ C) as (comps & cs & added & _ & FC & _).
  apply (C47_solution_reproduced_pf _ _ _ _ _ _ _ C F). intros name data t I M. destruct (SPLIT _ _ I) as (path & G & D & K). destruct (fixed_declared _ _ _ _ _ FC I) as (w & W & DW).
  destruct (C48_table_complete_pf p unit_of v) as (CG & CR & _).
  pose proof (saved_rect p unit_of rnd sixg v) as RC. pose proof (saved_label p rnd RN YD t M) as SL.
  assert (MAIN : forall r f rr a, data r = Some f -> In rr (rows p unit_of v) -> r_variable rr = name -> r_region rr = r -> nth t (r_values rr) 0 = a -> Rabs a < 1000 ->
            a - 1/1000 <= f (year p t) <= a + 1/1000).
  { intros r f rr a DR IR E1 E2 E3 SM. destruct (table_data_at _ _ _ _ _ _ _ _ _ _ TP D RC G DR SL) as (row & R1 & R2 & R3 & R4).
    rewrite <- E1 in R2. rewrite <- E2 in R3. pose proof (saved_unique p unit_of rnd sixg v ND rr IR row R1 R2 R3) as ->.
    rewrite (R4 _ _ (saved_cell p unit_of rnd sixg v RN YD DT rr t IR M) (number_float _)). rewrite E3. pose proof (rabs_inv _ _ (SG _ SM)). lra. }
  split.
  - intros x r f E MR DR. assert (w = Rv x) as -> by (apply vname_inj; rewrite W; exact E). clear W. subst name. destruct (CR x r DW MR) as (rr & R1 & R2 & R3 & _ & R4).
    apply (MAIN r f rr _ DR R1 R2 R3); [|apply VR; auto]. rewrite R4. apply (saved_nth (fun t => rval v x t r)). exact M.
  - intros g f E DR. assert (w = Gv g) as -> by (apply vname_inj; rewrite W; exact E). clear W. subst name. destruct (CG g DW) as (rr & R1 & R2 & R3 & _ & R4).
    apply (MAIN "Global" f rr _ DR R1 R2 R3); [|apply VG; auto]. rewrite R4. apply (saved_nth (gval v g)). exact M.
Qed.
(** With larger values this fails: if a saved value (six digits) is more than 0.001 off, the point is infeasible for the
    simulation run that imposes its own file. *)
Lemma C59_rounded_file_refuted_pf : forall disk spline params s extra n m p active v unit_of rnd sixg x path t r,
  through_points spline -> (forall y, Rabs (IZR (rnd y) - y) <= 1/2) -> two_decimals p -> 5/10 <= dt p -> NoDup (regions p) ->
  sim_of disk spline params = Ok (Some s) -> no_number_deactivated params -> create_instance p extra n m (Some s) = Ok active ->
  lookup params ["simulation"; "constraint_variables"; rname x] = Some (VStr path) -> disk path = Ok (saved_table p unit_of rnd sixg v) ->
  model_step p t -> In r (regions p) -> Rabs (Q2R (sixg (rval v x t r)) - rval v x t r) > 1/1000 ->
  ~ solution_of p active v.
Proof.
  intros disk spline params s extra n m p active v unit_of rnd sixg x path t r TP RN YD DT ND S NN C L D M MR BIG SO.
  destruct (sim_entry _ _ _ _ _ _ S L) as (data & D1 & D2). destruct (create_sim _ _ _ _ _ _ C) as (comps & cs & added & _ & FC & _).
  destruct (fixed_declared _ _ _ _ _ FC D1) as (w & W & DW). change (rname x) with (vname (Rv x)) in W. apply vname_inj in W. subst w.
  destruct (C48_table_complete_pf p unit_of v) as (_ & CR & _). destruct (CR x r DW MR) as (rr & R1 & R2 & R3 & _ & R4).
  pose proof (saved_unique p unit_of rnd sixg v ND rr R1) as U. rewrite R2, R3 in U.
  pose proof (file_values_imposed _ _ _ _ _ _ _ _ _ _ _ _ _ _ _ _ _ _ _ TP S NN C SO L D (saved_rect p unit_of rnd sixg v) U
                (saved_cell p unit_of rnd sixg v RN YD DT rr t R1 M) (number_float _) M MR (saved_label p rnd RN YD t M)) as B.
  rewrite R4, (saved_nth (fun t => rval v x t r)) in B by exact M. apply Rgt_lt in BIG. unfold Rabs in BIG. destruct (Rcase_abs _) in BIG; lra.
Qed.
(** Without simulation mode the imposed variables and deactivated constraints are ignored. *)
Lemma C59_mode_off_pf : forall disk spline params, lookup params ["simulation"; "simulationmode"] = Some (VBool false) ->
  sim_of disk spline params = Ok None.
Proof. intros disk spline params H. apply config_lookup in H. unfold sim_of. rewrite H. reflexivity. Qed.

(** *** A run on a saved file starts *)
Lemma map_result_total {A B} (f : A -> result B) l : (forall a, In a l -> exists b, f a = Ok b) -> exists l', map_result f l = Ok l'.
Proof.
  induction l as [|a l IH]; intros H; cbn [map_result]; [eauto|]. destruct (H a (or_introl eq_refl)) as [b ->]. destruct IH as [l' ->]; [intros; apply H; right; auto|]. cbn. eauto.
Qed.
Lemma map_result_map {A B C} (f : B -> result C) (g : A -> B) (h : A -> C) l : (forall a, In a l -> f (g a) = Ok (h a)) -> map_result f (map g l) = Ok (map h l).
Proof. induction l as [|a l IH]; intros H; cbn [map_result map]; [reflexivity|]. rewrite H by (left; reflexivity). cbn [bind]. rewrite IH by (intros; apply H; right; auto). reflexivity. Qed.
Lemma kept_all {A} labels (cells : list A) : (forall c, In c labels -> kept_column c = true) -> List.length labels = List.length cells ->
  map snd (filter (fun cv => kept_column (fst cv)) (combine labels cells)) = cells.
Proof.
  revert cells. induction labels as [|c labels IH]; intros [|x cells] K L; try discriminate; [reflexivity|]. cbn [combine filter fst]. rewrite K by (left; reflexivity).
  cbn [map snd]. rewrite IH; [reflexivity|intros; apply K; right; auto|cbn in L; lia].
Qed.
Lemma filter_all {A} (f : A -> bool) l : (forall c, In c l -> f c = true) -> filter f l = l.
Proof. induction l as [|a l IH]; intros H; cbn; [reflexivity|]. rewrite H by (left; reflexivity). rewrite IH; [reflexivity|intros; apply H; right; auto]. Qed.
Lemma increasing_app l l' : TimeGridLemmas.increasing l -> TimeGridLemmas.increasing l' -> (forall a b, In a l -> In b l' -> a < b) -> TimeGridLemmas.increasing (l ++ l')%list.
Proof.
  intros H1 H2 H3 i j [I J]. rewrite app_length in J. destruct (Nat.lt_ge_cases j (List.length l)) as [X|X].
  - rewrite !app_nth1 by lia. apply H1. lia.
  - destruct (Nat.lt_ge_cases i (List.length l)) as [Y|Y].
    + rewrite app_nth1, app_nth2 by lia. apply H3; apply nth_In; lia.
    + rewrite !app_nth2 by lia. apply H2. lia.
Qed.
Local Opaque rows.
Section Starts.
  Variables (p : pars) (unit_of : string -> string) (rnd : R -> Z) (sixg : R -> Q) (v : point) (spline : list R -> list R -> result (R -> R)).
  Hypothesis RN : forall x, Rabs (IZR (rnd x) - x) <= 1/2.
  Hypothesis YD : two_decimals p.
  Hypothesis DT : 5/10 <= dt p.
  Hypothesis TF : (3 <= tf p)%nat.
  Hypothesis SD : spline_defined spline.
  Lemma labels_kept c : In c (year_labels rnd p) -> kept_column c = true.
  Proof.
    intros I. unfold year_labels, steps in I. apply in_map_iff in I as (t & <- & T). apply in_seq in T. apply (year_kept _ (year p t)), (saved_label p rnd RN YD). unfold model_step. lia.
  Qed.
  Lemma labels_length : List.length (year_labels rnd p) = S (tf p).
  Proof. unfold year_labels, steps. rewrite map_length, seq_length. reflexivity. Qed.
  Lemma kept_labels : filter kept_column (columns rnd p) = year_labels rnd p.
  Proof. unfold columns. rewrite filter_app. change (filter kept_column ["Variable"; "Region"; "Unit"]) with (@nil string). apply filter_all, labels_kept. Qed.
  Lemma kept_values rr : In rr (rows p unit_of v) -> kept_cells (columns rnd p) (saved_row sixg rr) = map (fun x => VFloat (FFin (sixg x))) (r_values rr).
  Proof.
    intros I. unfold kept_cells, columns, saved_row. cbn [app combine filter fst]. change (kept_column "Variable") with false. change (kept_column "Region") with false. change (kept_column "Unit") with false. cbv iota.
    apply kept_all; [exact labels_kept|]. rewrite labels_length, map_length. symmetry. apply (proj1 (C48_table_rectangular_pf p unit_of v rnd _ I)).
  Qed.
  Lemma interp_saved rr : In rr (rows p unit_of v) -> exists g, interp spline (map KStr (year_labels rnd p)) (map (fun x => VFloat (FFin (sixg x))) (r_values rr)) = Ok g.
  Proof.
    intros I. pose proof (proj1 (C48_table_rectangular_pf p unit_of v rnd _ I)) as L. unfold interp.
    rewrite (map_result_map _ _ (fun x => Q2R (sixg x))) by reflexivity. cbn [bind]. unfold year_labels. rewrite map_map.
    rewrite (map_result_map _ _ (year p)) by (intros t T; unfold steps in T; apply in_seq in T; apply (saved_label p rnd RN YD); unfold model_step; lia). cbn [bind].
    assert (RV : rev (map (year p) (steps p)) = year p (tf p) :: rev (map (year p) (seq 0 (tf p)))).
    { unfold steps. rewrite seq_S, map_app, rev_app_distr. reflexivity. }
    rewrite RV. set (last := year p (tf p)).
    assert (LY : List.length (map (year p) (steps p)) = S (tf p)) by (unfold steps; rewrite map_length, seq_length; reflexivity).
    destruct (C13_total_pf (map (fun x => Q2R (sixg x)) (r_values rr)) (map (year p) (steps p)) (extra_sim_years last)) as [out O]; [rewrite map_length; lia|rewrite LY, map_length; lia|].
    rewrite O. cbn [bind]. apply SD.
    - apply increasing_app.
      + intros i j [H1 H2]. rewrite LY in H2. unfold steps. rewrite !(saved_nth (year p)) by lia. unfold year. apply lt_INR in H1. nra.
      + apply arange_increasing. lra.
      + intros a b A B. apply in_map_iff in A as (t & <- & T). unfold steps in T. apply in_seq in T.
        assert (A1 : year p t <= last). { unfold last, year. assert (T2 : (t <= tf p)%nat) by lia. apply le_INR in T2. nra. }
        unfold extra_sim_years, arange in B. apply in_map_iff in B as (k & <- & _). unfold year_at. pose proof (pos_INR k). nra.
    - apply C13_data_unchanged_pf in O as [_ O]. rewrite app_length, LY, O. rewrite map_length. lia.
    - rewrite app_length, LY. lia.
  Qed.
  Definition saved_cells (rr : row) : list pyval := map (fun x => VFloat (FFin (sixg x))) (r_values rr).
  Definition saved_frow (rr : row) : key * list pyval := (KStr (r_region rr), saved_cells rr).
  Definition named_rows (name : string) : list row := filter (fun rr => String.eqb (r_variable rr) name) (rows p unit_of v).
  Lemma saved_cell_is rr name : cell_is (saved_row sixg rr) 0 name = String.eqb (r_variable rr) name.
  Proof. reflexivity. Qed.
  Lemma saved_filter name l : filter (fun row => cell_is row 0 name) (map (saved_row sixg) l) = map (saved_row sixg) (filter (fun rr => String.eqb (r_variable rr) name) l).
  Proof. induction l as [|x l IH]; [reflexivity|]. cbn [map filter]. rewrite saved_cell_is, IH. destruct (String.eqb (r_variable x) name); reflexivity. Qed.
  Lemma index_columns : index_of "Variable" (columns rnd p) = Ok 0%nat /\ index_of "Region" (columns rnd p) = Ok 1%nat.
  Proof. split; reflexivity. Qed.
  Lemma frame_rows cols labels (l : list row) name : index_of "Variable" cols = Ok 0%nat -> index_of "Region" cols = Ok 1%nat -> filter kept_column cols = labels ->
    (forall rr, In rr l -> kept_cells cols (saved_row sixg rr) = saved_cells rr) ->
    frame_of_table {| t_columns := cols; t_rows := map (saved_row sixg) l |} name =
    Ok {| f_columns := map KStr labels; f_rows := map saved_frow (filter (fun rr => String.eqb (r_variable rr) name) l) |}.
  Proof.
    intros C1 C2 C3 K. unfold frame_of_table. cbn [t_columns t_rows]. rewrite C1, C2, C3. cbn [bind]. rewrite saved_filter.
    rewrite (map_result_map _ _ saved_frow); [reflexivity|]. intros rr H. apply filter_In in H as [H _].
    change (nth 1 (saved_row sixg rr) nan) with (VStr (r_region rr)). cbn [region_key bind]. rewrite (K rr H). reflexivity.
  Qed.
  Lemma frame_saved name : frame_of_table (saved_table p unit_of rnd sixg v) name =
    Ok {| f_columns := map KStr (year_labels rnd p); f_rows := map saved_frow (named_rows name) |}.
  Proof. exact (frame_rows (columns rnd p) (year_labels rnd p) (rows p unit_of v) name (proj1 index_columns) (proj2 index_columns) kept_labels kept_values). Qed.
  Lemma interpolating_rows_total cols last rest y (l : list row) : rev cols = last :: rest -> label_year last = Ok y -> (forall rr, In rr l -> exists g, interp spline cols (saved_cells rr) = Ok g) ->
    exists fs, interpolating spline {| f_columns := cols; f_rows := map saved_frow l |} = Ok fs /\ forall rr, In rr l -> get_region fs (r_region rr) <> None.
  Proof.
    intros RV LY IN. unfold interpolating. cbn [f_columns f_rows]. rewrite RV, LY. cbn [bind].
    set (h := fun row : key * list pyval => _).
    destruct (map_result_total h (map saved_frow l)) as [fs FS].
    { intros kc H. apply in_map_iff in H as (rr & E & H). subst kc. unfold h. cbn [saved_frow fst snd]. destruct (IN rr H) as [g G]. rewrite G. cbn [bind]. eauto. }
    exists fs. split; [exact FS|]. intros rr I. assert (I2 : In (saved_frow rr) (map saved_frow l)) by (apply in_map, I).
    destruct (map_result_to h _ fs FS (saved_frow rr) I2) as ([k g] & B1 & B2). unfold h in B2. apply bind_ok in B2 as (g' & _ & B2). apply Ok_inj in B2. injection B2 as B2 _.
    unfold get_region. destruct (find _ _) as [x|] eqn:FN; [discriminate|]. exfalso. apply in_rev in B1. apply (find_none _ _ FN) in B1. cbn [fst] in B1. rewrite B2 in B1. cbn in B1. rewrite String.eqb_refl in B1. discriminate.
  Qed.
  Lemma labels_last : rev (map KStr (year_labels rnd p)) = KStr (year_label rnd (year p (tf p))) :: rev (map KStr (map (fun t => year_label rnd (year p t)) (seq 0 (tf p)))).
  Proof. unfold year_labels, steps. rewrite seq_S, !map_app, rev_app_distr. reflexivity. Qed.
  Lemma named_interp name rr : In rr (named_rows name) -> exists g, interp spline (map KStr (year_labels rnd p)) (saved_cells rr) = Ok g.
  Proof. intros H. apply filter_In in H as [H _]. exact (interp_saved rr H). Qed.
  Lemma last_label : label_year (KStr (year_label rnd (year p (tf p)))) = Ok (year p (tf p)).
  Proof. apply (saved_label p rnd RN YD). unfold model_step. lia. Qed.
  Lemma interpolating_saved name : exists fs, interpolating spline {| f_columns := map KStr (year_labels rnd p); f_rows := map saved_frow (named_rows name) |} = Ok fs /\
    forall rr, In rr (named_rows name) -> get_region fs (r_region rr) <> None.
  Proof. exact (interpolating_rows_total _ _ _ _ (named_rows name) labels_last last_label (named_interp name)). Qed.
  Lemma saved_data_reads disk path name : disk path = Ok (saved_table p unit_of rnd sixg v) ->
    exists data, get_interp_data disk spline name (VStr path) = Ok data /\
      forall rr, In rr (rows p unit_of v) -> r_variable rr = name -> data (r_region rr) <> None.
  Proof.
    intros D. destruct (interpolating_saved name) as (fs & FS & G). exists (get_region fs). split.
    - unfold get_interp_data. rewrite D. cbn [bind]. rewrite frame_saved. cbn [bind]. rewrite FS. reflexivity.
    - intros rr I E. apply G. apply filter_In. split; [exact I|]. apply String.eqb_eq, E.
  Qed.
End Starts.

(** A simulation run that imposes declared variables from a saved file can be built. *)
Lemma C59_saved_file_accepted_pf : forall disk spline params extra n p v unit_of rnd sixg imposed,
  spline_defined spline -> (forall y, Rabs (IZR (rnd y) - y) <= 1/2) -> two_decimals p -> 5/10 <= dt p -> (3 <= tf p)%nat ->
  numeric_ranges p -> sound_data p -> usable_choices p ->
  lookup params ["simulation"; "simulationmode"] = Some (VBool true) ->
  lookup params ["simulation"; "constraint_variables"] = Some (VDict imposed) ->
  lookup params ["simulation"; "deactivated_constraints"] = Some (VList []) ->
  (forall k w, In (k, w) imposed -> exists path, w = VStr path /\ disk path = Ok (saved_table p unit_of rnd sixg v)) ->
  (forall k, In k (map fst imposed) -> (exists x, k = KStr (rname x) /\ declared_r p x = true) \/ (exists g, k = KStr (gname g) /\ declared_g p g = true)) ->
  exists s m0, sim_of disk spline params = Ok (Some s) /\
    forall m, (m0 <= m)%nat -> exists active, create_instance p extra n m (Some s) = Ok active.
Proof.
  intros disk spline params extra n p v unit_of rnd sixg imposed SD RN YD DT TF NR SO UC L1 L2 L3 P NM.
  pose proof (saved_data_reads p unit_of rnd sixg v spline RN YD DT TF SD disk) as READ.
  destruct (map_result_total (fun kv : key * pyval => match fst kv with KStr k => Ok (k, snd kv) | KInt _ => Err TypeError end) imposed) as [its IT].
  { intros [k w] I. cbn [fst snd]. destruct (NM k (in_map fst _ _ I)) as [(x & -> & _)|(g & -> & _)]; eauto. }
  assert (ITS : forall name w, In (name, w) its -> In (KStr name, w) imposed).
  { intros name w I. destruct (map_result_from _ _ _ IT _ I) as ([k w'] & K1 & K2). cbn [fst snd] in K2. destruct k as [k|]; [|discriminate]. apply Ok_inj in K2. injection K2 as K2 K3. subst. exact K1. }
  set (h := fun kv : string * pyval => do d <- get_interp_data disk spline (fst kv) (snd kv); Ok (fst kv, d)).
  destruct (map_result_total h its) as [fx FX].
  { intros [name w] I. destruct (P _ _ (ITS _ _ I)) as (path & -> & D). destruct (READ path name D) as (data & G & _). unfold h. cbn [fst snd]. rewrite G. cbn [bind]. eauto. }
  set (s := {| sim_fixed := fx; sim_deactivated := [] |}).
  assert (S : sim_of disk spline params = Ok (Some s)).
  { unfold sim_of. apply config_lookup in L1, L2, L3. rewrite L1, L2, L3. cbn [bind py_truth items]. rewrite IT. cbn [bind]. fold h. rewrite FX. reflexivity. }
  destruct (C47_simulation_builds_pf extra n p s NR SO UC) as (m0 & M0).
  - intros name data I. cbn [sim_fixed s] in I. destruct (map_result_from _ _ _ FX _ I) as ([nm w] & W1 & W2). unfold h in W2. cbn [fst snd] in W2.
    apply bind_ok in W2 as (dd & W2 & W3). apply Ok_inj in W3. injection W3 as W3 W4. subst nm dd. pose proof (ITS _ _ W1) as K.
    destruct (P _ _ K) as (path & -> & D). destruct (READ path name D) as (data' & G & HR). rewrite G in W2. apply Ok_inj in W2. subst data'.
    destruct (C48_table_complete_pf p unit_of v) as (CG & CR & _).
    destruct (NM _ (in_map fst _ _ K)) as [(x & E & DX)|(g & E & DG)]; cbn [fst] in E; injection E as ->.
    + left. exists x. split; [reflexivity|]. split; [exact DX|]. intros r Hr. destruct (CR x r DX Hr) as (rr & R1 & R2 & R3 & _). rewrite <- R3. apply HR; auto.
    + right. exists g. split; [reflexivity|]. split; [exact DG|]. destruct (CG g DG) as (rr & R1 & R2 & R3 & _). rewrite <- R3. apply HR; auto.
  - intros d I. destruct I.
  - exists s, m0. split; [exact S|exact M0].
Qed.
