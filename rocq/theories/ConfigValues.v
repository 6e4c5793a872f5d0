(** What is stored for a value the user gave (C55). *)
From Coq Require Import Lia Lqa Qpower.
From Verif Require Import PyBase NestedDict NestedDictFacts Parsers Config ConfigDefault ConfigFacts ConfigFacts2 ConfigFacts3
  ConfigSpec ConfigBridge RefFacts ConfigLemmas ConfigRefuted.
Import ListNotations.
Open Scope string_scope.
Open Scope list_scope.

(** *** Specification *)
Definition truthy_value (v : pyval) : Prop :=
  v = VBool true \/ v = VInt 1 \/ (exists q, v = VFloat (FFin q) /\ (q == 1)%Q) \/
  v = VStr "True" \/ v = VStr "true" \/ v = VStr "yes".
(** decimal digits and the number they denote *)
Definition digit (c : ascii) : Prop := (48 <= nat_of_ascii c <= 57)%nat.
Fixpoint digits_value (ds : list ascii) (acc : Z) : Z :=
  match ds with [] => acc | c :: r => digits_value r (10 * acc + (Z.of_nat (nat_of_ascii c) - 48))%Z end.
Definition digit_text (ds : list ascii) : Prop := ds <> [] /\ Forall digit ds.
(** "2100", "-3" *)
Inductive int_text : string -> Z -> Prop :=
| int_pos s ds : list_ascii_of_string s = ds -> digit_text ds -> int_text s (digits_value ds 0)
| int_neg s ds : list_ascii_of_string s = ("-"%char :: ds) -> digit_text ds -> int_text s (- digits_value ds 0).
(** "0.25", "-1.5": digits, a point, digits *)
Definition decimal (ds fs : list ascii) : Q :=
  (inject_Z (digits_value fs (digits_value ds 0)) / inject_Z (10 ^ Z.of_nat (List.length fs)))%Q.
Inductive float_text : string -> Q -> Prop :=
| float_int s z : int_text s z -> float_text s (inject_Z z)
| float_pos s ds fs : list_ascii_of_string s = ds ++ "."%char :: fs -> digit_text ds -> digit_text fs ->
    float_text s (decimal ds fs)
| float_neg s ds fs : list_ascii_of_string s = "-"%char :: ds ++ "."%char :: fs -> digit_text ds -> digit_text fs ->
    float_text s (- decimal ds fs)
(* "1e-05", "-2.5E3", "1e+06" *)
| float_exp s (neg : bool) ds fs c (sg : list ascii) es : digit_text ds -> Forall digit fs -> c = "e"%char \/ c = "E"%char ->
    sg = [] \/ sg = ["+"%char] \/ sg = ["-"%char] -> digit_text es ->
    list_ascii_of_string s = (if neg then ["-"%char] else []) ++ ds ++ (match fs with [] => [] | _ => "."%char :: fs end) ++ c :: sg ++ es ->
    float_text s ((if neg then - decimal ds fs else decimal ds fs) *
      10 ^ (match sg with ["-"%char] => - digits_value es 0 | _ => digits_value es 0 end)%Z)%Q.
(** numbers that a double can hold *)
Definition in_range (q : Q) : Prop := (- inject_Z (2 ^ 1024 - 2 ^ 970) < q < inject_Z (2 ^ 1024 - 2 ^ 970))%Q.

(** *** Reading numbers *)
Lemma digit_is c : digit c -> is_digit c = true.
Proof. intros [A B]. unfold is_digit, char_in. apply andb_true_iff. split; apply Nat.leb_le; assumption. Qed.
Lemma digit_nospace c : digit c -> is_space c = false.
Proof.
  intros [A B]. unfold is_space, char_in. apply orb_false_iff.
  split; apply andb_false_iff; right; apply Nat.leb_gt; lia.
Qed.
Lemma lstrip_id l : Forall (fun c => is_space c = false) l -> lstrip l = l.
Proof. destruct l as [|c l]; intros F; [reflexivity|]. apply Forall_cons_iff in F as [E _]. cbn. rewrite E. reflexivity. Qed.
Lemma strip_id l : Forall (fun c => is_space c = false) l -> strip l = l.
Proof. intros F. unfold strip. rewrite (lstrip_id l F), lstrip_id; [apply rev_involutive|apply Forall_rev, F]. Qed.
Lemma read_digits_all ds : Forall digit ds -> forall rest acc n p,
  match rest with c :: _ => is_digit c = false /\ c <> "_"%char | [] => True end ->
  read_digits (ds ++ rest) acc n p = (digits_value ds acc, n + List.length ds, rest)%nat.
Proof.
  induction ds as [|c ds IH]; intros F rest acc n p R.
  - cbn [app digits_value List.length]. rewrite Nat.add_0_r. destruct rest as [|c rest]; [reflexivity|]. destruct R as [R1 R2]. cbn [read_digits]. rewrite R1.
    destruct (Ascii.eqb_spec c "_"); [congruence|]. reflexivity.
  - apply Forall_cons_iff in F as [D F]. cbn [app read_digits digits_value List.length]. rewrite (digit_is _ D). rewrite IH; auto.
    unfold digit_val. rewrite (Z.mul_comm acc 10). f_equal. f_equal. lia.
Qed.
Lemma digits_sign ds rest : digit_text ds -> read_sign (ds ++ rest) = (false, ds ++ rest).
Proof.
  intros [NE F]. destruct ds as [|c ds]; [congruence|]. apply Forall_cons_iff in F as [[A B] _]. cbn [app read_sign].
  assert (P : c <> "+"%char) by (intros ->; vm_compute in A; lia).
  assert (M : c <> "-"%char) by (intros ->; vm_compute in A; lia).
  destruct c as [[] [] [] [] [] [] [] []]; try reflexivity; congruence.
Qed.
Lemma len_S ds : digit_text ds -> exists n, List.length ds = S n.
Proof. intros [NE _]. destruct ds; [congruence|]. eexists. reflexivity. Qed.
Lemma int_text_parse s z : int_text s z -> py_int (VStr s) = Ok z.
Proof.
  assert (NS : forall ds, digit_text ds -> Forall (fun c => is_space c = false) ds) by (intros ds [_ F]; eapply Forall_impl; [|exact F]; exact digit_nospace).
  intros [s' ds E D|s' ds E D]; unfold py_int, parse_int_str, chars; rewrite E.
  - rewrite strip_id by auto. pose proof (digits_sign ds [] D) as SG. rewrite app_nil_r in SG. rewrite SG.
    pose proof (read_digits_all ds (proj2 D) [] 0 0%nat false I) as R. rewrite app_nil_r in R. rewrite R.
    destruct (len_S ds D) as [n ->]. reflexivity.
  - rewrite strip_id by (constructor; [reflexivity|auto]). cbn [read_sign].
    pose proof (read_digits_all ds (proj2 D) [] 0 0%nat false I) as R. rewrite app_nil_r in R. rewrite R.
    destruct (len_S ds D) as [n ->]. reflexivity.
Qed.

Lemma not_word ds w : digit_text ds -> (forall c r, map lower ds = c :: r -> c <> match w with String a _ => a | _ => "0"%char end) -> w <> "" ->
  forall rest, chars_eqb (ds ++ rest) w = false.
Proof.
  intros [NE _] H W rest. unfold chars_eqb. apply String.eqb_neq. intros E. destruct ds as [|c ds]; [congruence|]. cbn [app map string_of_list_ascii] in E.
  destruct w as [|a w]; [congruence|]. injection E as E1 E2. apply (H (lower c) (map lower ds) eq_refl). exact E1.
Qed.
Lemma digit_lower c : digit c -> lower c = c.
Proof. intros [A B]. unfold lower, char_in. destruct (Nat.leb_spec 65 (nat_of_ascii c)); [lia|reflexivity]. Qed.
Lemma digits_no_word ds rest : digit_text ds ->
  chars_eqb (ds ++ rest) "inf" || chars_eqb (ds ++ rest) "infinity" = false /\ chars_eqb (ds ++ rest) "nan" = false.
Proof.
  intros D.
  assert (H : forall w a, w = String a (match w with String _ r => r | _ => "" end) -> ~ digit a -> chars_eqb (ds ++ rest) w = false).
  { intros w a E N. apply not_word; [exact D| |rewrite E; discriminate]. rewrite E. intros c r M. destruct D as [NE F]. destruct ds as [|c' ds]; [congruence|].
    cbn in M. injection M as M _. apply Forall_cons_iff in F as [F _]. rewrite (digit_lower _ F) in M. subst c. intros ->. contradiction. }
  split; [apply orb_false_iff; split|]; (eapply H; [reflexivity|]); intros [A B]; vm_compute in B; lia.
Qed.
Lemma digits_value_pos ds : Forall digit ds -> forall acc, (0 <= acc)%Z -> (0 <= digits_value ds acc)%Z.
Proof.
  induction ds as [|c ds IH]; intros F acc A; [exact A|]. apply Forall_cons_iff in F as [[D _] F]. cbn [digits_value]. apply IH; [exact F|lia].
Qed.
Lemma mk_float_in q : in_range q -> mk_float q = FFin q.
Proof.
  intros [A B]. unfold mk_float, float_overflow. destruct (Qle_bool _ q) eqn:E.
  - apply Qle_bool_iff in E. exfalso. apply (Qlt_not_le _ _ B E).
  - destruct (Qle_bool q _) eqn:E2; [|reflexivity]. apply Qle_bool_iff in E2. exfalso. apply (Qlt_not_le _ _ A E2).
Qed.

Lemma in_range_opp q : in_range (- q) -> in_range q.
Proof. unfold in_range. generalize (inject_Z (2 ^ 1024 - 2 ^ 970)). intros M [A B]. split; Lqa.lra. Qed.
Lemma in_range_eq q q' : (q == q')%Q -> in_range q -> in_range q'.
Proof. unfold in_range. generalize (inject_Z (2 ^ 1024 - 2 ^ 970)). intros M E [A B]. split; Lqa.lra. Qed.
Lemma Q10pow_div n : (Q10pow (- Z.of_nat n) == / inject_Z (10 ^ Z.of_nat n))%Q.
Proof.
  destruct n as [|n]; [reflexivity|]. change (Z.of_nat (S n)) with (Zpos (Pos.of_succ_nat n)). generalize (Pos.of_succ_nat n). intros p.
  change (- Zpos p)%Z with (Zneg p). unfold Q10pow. replace (10 ^ Zpos p)%Z with (Zpos (10 ^ p)) by (rewrite Pos2Z.inj_pow; reflexivity). reflexivity.
Qed.
Lemma decimal_read ds fs : (inject_Z (digits_value fs (digits_value ds 0)) * Q10pow (- Z.of_nat (List.length fs)) == decimal ds fs)%Q.
Proof. unfold decimal, Qdiv. rewrite Q10pow_div. reflexivity. Qed.

Lemma float_read s neg ds l m nf : read_sign (strip (chars s)) = (neg, l) -> digit_text ds ->
  (l = ds /\ m = digits_value ds 0 /\ nf = 0%nat \/
   exists fs, l = ds ++ "."%char :: fs /\ digit_text fs /\ m = digits_value fs (digits_value ds 0) /\ nf = List.length fs) ->
  in_range (inject_Z m * Q10pow (- Z.of_nat nf)) ->
  parse_float_str s = Some (if neg then FFin (- (inject_Z m * Q10pow (- Z.of_nat nf))) else FFin (inject_Z m * Q10pow (- Z.of_nat nf))).
Proof.
  intros RS D H R. unfold parse_float_str. rewrite RS.
  destruct (len_S _ D) as [n0 LN].
  destruct H as [(-> & -> & ->)|(fs & -> & DF & -> & ->)].
  - destruct (digits_no_word ds [] D) as [W1 W2]. rewrite app_nil_r in W1, W2. rewrite W1, W2.
    pose proof (read_digits_all ds (proj2 D) [] 0 0%nat false I) as RD. rewrite app_nil_r in RD. rewrite RD. cbn [Nat.add].
    rewrite LN. cbn [Nat.add Nat.eqb]. rewrite (mk_float_in _ R). destruct neg; reflexivity.
  - destruct (digits_no_word ds ("."%char :: fs) D) as [W1 W2]. rewrite W1, W2.
    rewrite (read_digits_all ds (proj2 D) ("."%char :: fs) 0 0%nat false) by (split; [reflexivity|discriminate]).
    pose proof (read_digits_all fs (proj2 DF) [] (digits_value ds 0) 0%nat false I) as RD. rewrite app_nil_r in RD. rewrite RD. cbn [Nat.add].
    rewrite LN. cbn [Nat.add Nat.eqb]. rewrite (mk_float_in _ R). destruct neg; reflexivity.
Qed.
Lemma Q10pow_power e : (Q10pow e == 10 ^ e)%Q.
Proof.
  destruct e as [|p|p]; [reflexivity| |].
  - unfold Q10pow. change (Z.pow_pos 10 p) with (10 ^ Zpos p)%Z. rewrite Zpower_Qpower by lia. reflexivity.
  - rewrite Qpower_decomp_neg_pos. unfold Q10pow. rewrite Z.pow_1_l by lia. reflexivity.
Qed.
Lemma exp_read s (neg : bool) ds fs c (sg : list ascii) es : digit_text ds -> Forall digit fs -> c = "e"%char \/ c = "E"%char ->
  sg = [] \/ sg = ["+"%char] \/ sg = ["-"%char] -> digit_text es ->
  list_ascii_of_string s = (if neg then ["-"%char] else []) ++ ds ++ (match fs with [] => [] | _ => "."%char :: fs end) ++ c :: sg ++ es ->
  forall x, x = (inject_Z (digits_value fs (digits_value ds 0)) *
    Q10pow ((match sg with ["-"%char] => - digits_value es 0 | _ => digits_value es 0 end) - Z.of_nat (List.length fs)))%Q ->
  in_range x -> parse_float_str s = Some (FFin (if neg then - x else x)%Q).
Proof.
  intros D DF C SG DE E x X R.
  assert (NS : forall ds, Forall digit ds -> Forall (fun c => is_space c = false) ds) by (intros l F; eapply Forall_impl; [|exact F]; exact digit_nospace).
  set (tl := c :: sg ++ es) in *. set (fr := match fs with [] => [] | _ => "."%char :: fs end) in *.
  assert (SP : Forall (fun c => is_space c = false) (ds ++ fr ++ tl)).
  { apply Forall_app; split; [apply NS, D|]. apply Forall_app; split; [unfold fr; destruct fs; [constructor|constructor; [reflexivity|apply NS, DF]]|].
    unfold tl. constructor; [destruct C as [-> | ->]; reflexivity|]. apply Forall_app; split; [destruct SG as [->|[->| ->]]; repeat constructor|apply NS, DE]. }
  assert (RS : read_sign (strip (chars s)) = (neg, ds ++ fr ++ tl)).
  { unfold chars. rewrite E. destruct neg; cbn [app].
    - rewrite strip_id by (constructor; [reflexivity|exact SP]). reflexivity.
    - rewrite strip_id by exact SP. apply digits_sign, D. }
  unfold parse_float_str. rewrite RS. destruct (digits_no_word ds (fr ++ tl) D) as [W1 W2]. rewrite W1, W2.
  assert (TL : match tl with c :: _ => is_digit c = false /\ c <> "_"%char | [] => True end) by (unfold tl; destruct C as [-> | ->]; split; [reflexivity|discriminate|reflexivity|discriminate]).
  assert (FR : match fr ++ tl with c :: _ => is_digit c = false /\ c <> "_"%char | [] => True end) by (unfold fr; destruct fs; [exact TL|split; [reflexivity|discriminate]]).
  rewrite (read_digits_all ds (proj2 D) (fr ++ tl) 0 0%nat false FR). destruct (len_S _ D) as [n0 LN]. cbn [Nat.add]. rewrite LN.
  assert (M : match fr ++ tl with "."%char :: r => read_digits r (digits_value ds 0) 0 false | _ => (digits_value ds 0, 0%nat, fr ++ tl) end =
              (digits_value fs (digits_value ds 0), List.length fs, tl)).
  { unfold fr. destruct fs as [|f fs].
    - cbn [app digits_value List.length]. unfold tl. destruct C as [-> | ->]; reflexivity.
    - cbn [app]. change (f :: fs ++ tl) with ((f :: fs) ++ tl). rewrite (read_digits_all (f :: fs) DF tl _ 0%nat false TL). reflexivity. }
  cbn zeta in M |- *. rewrite M. cbn [Nat.add Nat.eqb]. unfold tl.
  assert (EE : Ascii.eqb (lower c) "e" = true) by (destruct C as [-> | ->]; reflexivity). rewrite EE.
  pose proof (read_digits_all es (proj2 DE) [] 0 0%nat false I) as RD. rewrite app_nil_r in RD. destruct (len_S _ DE) as [n1 LE].
  destruct SG as [->|[->| ->]].
  - cbn [app]. pose proof (digits_sign es [] DE) as SG. rewrite app_nil_r in SG. rewrite SG, RD. cbn [Nat.add]. rewrite LE.
    cbv iota. rewrite <- X. rewrite (mk_float_in _ R). destruct neg; reflexivity.
  - cbn [app read_sign]. rewrite RD. cbn [Nat.add]. rewrite LE. cbv iota. rewrite <- X. rewrite (mk_float_in _ R). destruct neg; reflexivity.
  - cbn [app read_sign]. rewrite RD. cbn [Nat.add]. rewrite LE. cbv iota. rewrite <- X. rewrite (mk_float_in _ R). destruct neg; reflexivity.
Qed.
Lemma exp_value ds fs z : (inject_Z (digits_value fs (digits_value ds 0)) * Q10pow (z - Z.of_nat (List.length fs)) == decimal ds fs * 10 ^ z)%Q.
Proof.
  rewrite <- decimal_read, !Q10pow_power. unfold Z.sub. rewrite Qpower_plus by discriminate. ring.
Qed.
Lemma float_text_parse s q : float_text s q -> in_range q -> exists q', py_float (VStr s) = Ok (FFin q') /\ (q' == q)%Q.
Proof.
  assert (NS : forall ds, digit_text ds -> Forall (fun c => is_space c = false) ds) by (intros ds [_ F]; eapply Forall_impl; [|exact F]; exact digit_nospace).
  assert (Z0 : forall z, (inject_Z z * Q10pow (- Z.of_nat 0) == inject_Z z)%Q) by (intros z; change (Q10pow (- Z.of_nat 0)) with 1%Q; Lqa.lra).
  intros [s' z I0|s' ds fs E D DF|s' ds fs E D DF|s' neg ds fs c sg es D DF C SG DE E] R; unfold py_float.
  - destruct I0 as [s' ds E D|s' ds E D].
    + rewrite (float_read s' false ds ds (digits_value ds 0) 0); [eexists; split; [reflexivity|apply Z0]| |exact D|left; auto|].
      * unfold chars. rewrite E, strip_id by auto. pose proof (digits_sign ds [] D) as SG. rewrite app_nil_r in SG. exact SG.
      * eapply in_range_eq; [symmetry; apply Z0|exact R].
    + rewrite (float_read s' true ds ds (digits_value ds 0) 0); [eexists; split; [reflexivity|]| |exact D|left; auto|].
      * rewrite Z0. rewrite inject_Z_opp. reflexivity.
      * unfold chars. rewrite E, strip_id by (constructor; [reflexivity|auto]). reflexivity.
      * eapply in_range_eq; [symmetry; apply Z0|]. apply in_range_opp. eapply in_range_eq; [|exact R]. rewrite inject_Z_opp. reflexivity.
  - assert (SP : Forall (fun c => is_space c = false) (ds ++ "."%char :: fs)) by (apply Forall_app; split; [auto|constructor; [reflexivity|auto]]).
    rewrite (float_read s' false ds (ds ++ "."%char :: fs) (digits_value fs (digits_value ds 0)) (List.length fs)); [eexists; split; [reflexivity|apply decimal_read]| |exact D|right; eauto|].
    + unfold chars. rewrite E, strip_id by exact SP. apply digits_sign, D.
    + eapply in_range_eq; [symmetry; apply decimal_read|exact R].
  - assert (SP : Forall (fun c => is_space c = false) (ds ++ "."%char :: fs)) by (apply Forall_app; split; [auto|constructor; [reflexivity|auto]]).
    rewrite (float_read s' true ds (ds ++ "."%char :: fs) (digits_value fs (digits_value ds 0)) (List.length fs)); [eexists; split; [reflexivity|rewrite decimal_read; reflexivity]| |exact D|right; eauto|].
    + unfold chars. rewrite E, strip_id by (constructor; [reflexivity|exact SP]). reflexivity.
    + eapply in_range_eq; [symmetry; apply decimal_read|]. apply in_range_opp, R.
  - rewrite (exp_read s' neg ds fs c sg es D DF C SG DE E _ eq_refl).
    + eexists. split; [reflexivity|]. destruct neg; rewrite exp_value; ring.
    + destruct neg.
      * apply in_range_opp. eapply in_range_eq; [|exact R]. rewrite exp_value. ring.
      * eapply in_range_eq; [|exact R]. rewrite exp_value. reflexivity.
Qed.

Lemma is_truthy_spec v : is_truthy v = true <-> truthy_value v.
Proof.
  unfold is_truthy, truthy_value, py_in. destruct v as [|b|z|f|s|l|d]; cbn [existsb py_eqb num_of].
  - split; [discriminate|]. intuition; try discriminate. destruct H0 as [q [H _]]; discriminate.
  - destruct b; cbn; split; intros H; try (now auto); try discriminate. intuition; try discriminate. destruct H0 as [q [H _]]; discriminate.
  - cbn. rewrite !orb_false_r. split.
    + intros H. apply orb_true_iff in H as [H|H]; apply Qeq_bool_iff in H; unfold Qeq in H; cbn in H; right; left; f_equal; lia.
    + intros [H|[H|[[q [H _]]|[H|[H|H]]]]]; try discriminate. injection H as ->. reflexivity.
  - destruct f as [q| | |]; cbn; try (split; [discriminate|]; intuition; try discriminate; destruct H0 as [q [H _]]; discriminate).
    rewrite !orb_false_r. split.
    + intros H. right; right; left. exists q. split; [reflexivity|]. apply orb_true_iff in H as [H|H]; apply Qeq_bool_iff in H; rewrite H; reflexivity.
    + intros [H|[H|[[q' [H E]]|[H|[H|H]]]]]; try discriminate. injection H as ->. apply orb_true_iff. left. apply Qeq_bool_iff. exact E.
  - cbn. rewrite orb_false_r. split.
    + intros H. repeat (apply orb_true_iff in H as [H|H]); try discriminate; apply String.eqb_eq in H; subst; auto 10.
    + intros [H|[H|[[q [H _]]|[H|[H|H]]]]]; try discriminate; injection H as ->; reflexivity.
  - cbn. split; [discriminate|]. intuition; try discriminate. destruct H0 as [q [H _]]; discriminate.
  - cbn. split; [discriminate|]. intuition; try discriminate. destruct H0 as [q [H _]]; discriminate.
Qed.

(** *** The theorem *)
(** A value the user gave at a declared parameter (not a falsy value of an optional limit, for which see C05). *)
Lemma C55_value_kept_pf : forall o template user out tree p node raw v,
  distinct_keys template -> check_params o template user = Ok (out, tree) ->
  param_at template p node -> lookup user p = Some raw -> lookup out p = Some v ->
  ~ (may_be_false node /\ falsy_value raw) ->
  (* true/false *)
  (has_type node "bool" -> (v = VBool true /\ truthy_value raw) \/ (v = VBool false /\ falsy_value raw /\ ~ truthy_value raw)) /\
  (* whole numbers, also written as text; fractions are truncated towards zero *)
  (has_type node "int" ->
     (forall z, raw = VInt z -> v = VInt z) /\
     (forall s z, raw = VStr s -> int_text s z -> v = VInt z) /\
     (forall x, raw = VFloat (FFin x) -> exists z, v = VInt z /\ (0 <= x -> inject_Z z <= x < inject_Z (z + 1))%Q /\
        (x <= 0 -> inject_Z (z - 1) < x <= inject_Z z)%Q) /\
     (exists z, v = VInt z)) /\
  (* numbers, also written as text *)
  (has_type node "float" ->
     (forall z, raw = VInt z -> exists x, v = VFloat (FFin x) /\ (x == inject_Z z)%Q) /\
     (forall f, raw = VFloat f -> v = VFloat f) /\
     (forall s x, raw = VStr s -> float_text s x -> in_range x -> exists y, v = VFloat (FFin y) /\ (y == x)%Q) /\
     (exists f, v = VFloat f)) /\
  (* text *)
  (has_type node "str" \/ has_type node "filepath" -> (forall s, raw = VStr s -> v = VStr s) /\ (exists s, v = VStr s)) /\
  (* listed values and quantities are kept as given *)
  (has_type node "enum" \/ has_type node "quantity" -> v = raw) /\
  (* a list keeps its length *)
  (has_type node "list" -> (raw = VNone /\ v = VList []) \/
     exists l l', raw = VList l /\ v = VList l' /\ List.length l' = List.length l) /\
  (* a dictionary stays a dictionary *)
  (has_type node "dict" -> (raw = VNone /\ v = VDict []) \/ exists d d', raw = VDict d /\ v = VDict d') /\
  (has_type node "datasource" -> exists d d', raw = VDict d /\ v = VDict d' /\
     forall k, In k ["variable"; "unit"; "scenario"; "model"; "file"] -> exists x, lookup v [k] = Some x).
Proof.
  intros o template user out tree p node raw v Hd Hc Hp Hu Hv NF.
  destruct (param_stored _ _ _ _ _ _ _ Hd Hc Hp) as [pr [v' [H1 [H2 H3]]]]. rewrite Hu in H3. rewrite Hv in H2. injection H2 as <-.
  destruct (create_parser_fields _ _ H1) as [_ [Fc _]].
  assert (T : forall t ty, has_type node t -> type_lookup parser_types t = Some ty -> p_type pr = ty).
  { intros t ty Ht E. pose proof (has_type_lookup _ _ _ H1 Ht). congruence. }
  destruct pr as [ty dd c mn mx al u vp kp]. cbn [p_type p_cbf] in *. cbn [parse] in H3.
  assert (C : c && is_falsy raw = false).
  { destruct (c && is_falsy raw) eqn:E; [|reflexivity]. exfalso. apply andb_true_iff in E as [E1 E2]. apply NF. split; [apply Fc, E1|apply falsy_iff, E2]. }
  rewrite C in H3.
  repeat split.
  - intros Ht. rewrite (T _ TBool Ht eq_refl) in H3. destruct (is_truthy raw) eqn:E1.
    + left. injection H3 as <-. split; [reflexivity|apply is_truthy_spec, E1].
    + destruct (is_falsy raw) eqn:E2; [|discriminate]. right. injection H3 as <-. split; [reflexivity|]. split; [apply falsy_iff, E2|].
      intros X. apply is_truthy_spec in X. congruence.
  - intros z ->. rewrite (T _ TInt H eq_refl) in H3. cbn in H3. apply check_bounds_id in H3. exact H3.
  - intros s z -> I0. rewrite (T _ TInt H eq_refl) in H3. rewrite (int_text_parse _ _ I0) in H3. cbn [bind] in H3. apply check_bounds_id in H3. exact H3.
  - intros x ->. rewrite (T _ TInt H eq_refl) in H3. cbn [py_int bind] in H3. apply check_bounds_id in H3. exists (Qtrunc x). split; [exact H3|].
    destruct x as [n d]. unfold Qtrunc, Qle, Qlt. cbn [Qnum Qden inject_Z].
    pose proof (Z.quot_rem' n (Zpos d)) as QR. split; intros X.
    + assert (N : (0 <= n)%Z) by lia. pose proof (Z.rem_bound_pos n (Zpos d) N ltac:(lia)) as B.
      clear H3 X Hu C NF; set (a := Z.quot n (Zpos d)) in *; set (b := Z.rem n (Zpos d)) in *; clearbody a b; split; nia.
    + assert (N : (n <= 0)%Z) by lia. pose proof (Z.rem_bound_pos_neg n (Zpos d)) as B0; pose proof (Z.rem_nonpos n (Zpos d) ltac:(discriminate) N) as B1; pose proof (Z.rem_bound_abs n (Zpos d) ltac:(discriminate)) as B2.
      clear H3 X Hu C NF; set (a := Z.quot n (Zpos d)) in *; set (b := Z.rem n (Zpos d)) in *; clearbody a b; split; nia.
  - rewrite (T _ TInt H eq_refl) in H3. destruct (py_int raw) as [z|]; [|discriminate]. cbn [bind] in H3. apply check_bounds_id in H3. eauto.
  - intros z ->. rewrite (T _ TFloat H eq_refl) in H3. cbn [py_float] in H3. unfold mk_float in H3.
    destruct (Qle_bool float_overflow (inject_Z z)); [discriminate|]. destruct (Qle_bool (inject_Z z) (- float_overflow)); [discriminate|].
    cbn [bind] in H3. apply check_bounds_id in H3. exists (inject_Z z). split; [exact H3|reflexivity].
  - intros f ->. rewrite (T _ TFloat H eq_refl) in H3. cbn [py_float bind] in H3. apply check_bounds_id in H3. exact H3.
  - intros s x -> F R. rewrite (T _ TFloat H eq_refl) in H3. destruct (float_text_parse _ _ F R) as (y & E & Y). rewrite E in H3. cbn [bind] in H3.
    apply check_bounds_id in H3. eauto.
  - rewrite (T _ TFloat H eq_refl) in H3. destruct (py_float raw) as [z|]; [|discriminate]. cbn [bind] in H3. apply check_bounds_id in H3. eauto.
  - intros s ->. destruct H as [H|H]; [rewrite (T _ TStr H eq_refl) in H3|rewrite (T _ TFilepath H eq_refl) in H3]; injection H3 as <-; reflexivity.
  - destruct H as [H|H]; [rewrite (T _ TStr H eq_refl) in H3|rewrite (T _ TFilepath H eq_refl) in H3]; injection H3 as <-; eauto.
  - intros [H|H]; [rewrite (T _ TEnum H eq_refl) in H3; destruct (py_in raw al); congruence|].
    rewrite (T _ TQuantity H eq_refl) in H3. destruct (quant o raw u false) as [q|[]]; congruence.
  - intros H. rewrite (T _ TList H eq_refl) in H3. destruct raw as [| | | | |l|]; try discriminate; [left; split; congruence|right].
    destruct (map_result _ l) as [l'|] eqn:E; [|discriminate]. cbn [bind] in H3. injection H3 as <-. exists l, l'. repeat split.
    clear -E. revert l' E. induction l as [|x l IH]; intros l' E; cbn [map_result] in E; [injection E as <-; reflexivity|].
    match type of E with bind ?a _ = _ => destruct a as [y|]; [|discriminate] end. cbn [bind] in E.
    destruct (map_result _ l) as [l2|]; [|discriminate]. cbn [bind] in E. injection E as <-. cbn. f_equal. apply IH. reflexivity.
  - intros H. rewrite (T _ TDict H eq_refl) in H3. destruct raw as [| | | | | |d]; try discriminate; [left; split; congruence|right].
    match type of H3 with bind ?a _ = _ => destruct a as [d'|]; [|discriminate] end. cbn [bind] in H3. injection H3 as <-. eauto.
  - intros H. rewrite (T _ TDatasource H eq_refl) in H3. destruct raw as [| | | | | |d]; try discriminate.
    match type of H3 with bind ?a _ = _ => destruct a as [d'|]; [|discriminate] end. cbn [bind] in H3.
    destruct (forallb _ _) eqn:F in H3; [|discriminate]. injection H3 as <-. exists d, d'. repeat split. intros k K. rewrite forallb_forall in F. specialize (F _ K).
    cbn [lookup]. unfold dmem in F. destruct (dget d' (KStr k)) as [x|]; [eauto|discriminate].
Qed.

(** non-vacuity: the value "2100" (text) given for the end year, and 10 for the step *)
Example C55_ex : lookup (out_of user_ex) ["time"; "end"] = Some (VInt 2100) /\ int_text "2100" 2100.
Proof.
  split; [vm_compute; reflexivity|]. apply (int_pos "2100" (list_ascii_of_string "2100")); [reflexivity|].
  split; [discriminate|]. repeat constructor.
Qed.
