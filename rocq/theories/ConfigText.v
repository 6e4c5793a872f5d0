(** C55, continued: text is only accepted as a number when it is one, and it denotes that number. *)
From Coq Require Import Lia Lqa Qpower DecimalString DecimalZ.
From Verif Require Import PyBase NestedDict NestedDictFacts Parsers Config ConfigDefault ConfigFacts ConfigFacts2 ConfigFacts3
  ConfigSpec ConfigBridge RefFacts ConfigLemmas ConfigRefuted ConfigValues.
Import ListNotations.
Open Scope string_scope.
Open Scope list_scope.

(** *** Specification *)
(** white space: tab to carriage return, and the separators 28 to 32 *)
Definition blank (c : ascii) : Prop := (9 <= nat_of_ascii c <= 13 \/ 28 <= nat_of_ascii c <= 32)%nat.
(** [b] is written in [s], with white space around it at most *)
Definition written_in (s : string) (b : list ascii) : Prop :=
  exists before after, list_ascii_of_string s = before ++ b ++ after /\ Forall blank before /\ Forall blank after.
(** an optional sign in front of [r] *)
Definition signed (b : list ascii) (neg : bool) (r : list ascii) : Prop :=
  (neg = false /\ (b = r \/ b = "+"%char :: r)) \/ (neg = true /\ b = "-"%char :: r).
(** Python allows underscores between digits *)
Definition without_underscores (l : list ascii) : list ascii := filter (fun c => negb (Ascii.eqb c "_")) l.
(** an exponent: nothing, or e/E, a sign and digits *)
Definition exponent_text (l : list ascii) (e : Z) : Prop :=
  (l = [] /\ e = 0%Z) \/
  exists c b neg es, l = c :: b /\ (c = "e"%char \/ c = "E"%char) /\ signed b neg es /\ digit_text es /\ e = (if neg then - digits_value es 0 else digits_value es 0)%Z.
(** digits, a point and digits, an exponent: the number [x] *)
Definition number_text (l : list ascii) (x : Q) : Prop :=
  exists ds fs point ex e, l = ds ++ point ++ ex /\ Forall digit ds /\ Forall digit fs /\ ds ++ fs <> [] /\
    (point = "."%char :: fs \/ (point = [] /\ fs = [])) /\ exponent_text ex e /\ (x == decimal ds fs * 10 ^ e)%Q.
Definition word_text (l : list ascii) (w : string) : Prop := map lower l = list_ascii_of_string w.

(** *** Reading *)
Lemma space_blank c : is_space c = true -> blank c.
Proof.
  unfold is_space, char_in, blank. intros H. apply orb_true_iff in H as [H|H]; apply andb_true_iff in H as [A B]; apply Nat.leb_le in A, B; lia.
Qed.
Lemma is_digit_digit c : is_digit c = true -> digit c.
Proof. unfold is_digit, char_in, digit. intros H. apply andb_true_iff in H as [A B]. apply Nat.leb_le in A, B. lia. Qed.
Lemma lstrip_split l : exists a, l = a ++ lstrip l /\ Forall blank a.
Proof.
  induction l as [|c l IH]; [exists []; auto|]. cbn [lstrip]. destruct (is_space c) eqn:E; [|exists []; auto].
  destruct IH as (a & E1 & F). exists (c :: a). split; [cbn; congruence|]. constructor; [apply space_blank, E|exact F].
Qed.
Lemma strip_split s : written_in s (strip (chars s)).
Proof.
  unfold strip, written_in, chars. destruct (lstrip_split (list_ascii_of_string s)) as (a & E & F). set (l := lstrip (list_ascii_of_string s)) in *.
  destruct (lstrip_split (rev l)) as (b & E2 & F2). exists a, (rev b). split; [|split; [exact F|apply Forall_rev, F2]].
  rewrite E at 1. f_equal. rewrite <- rev_app_distr, <- E2, rev_involutive. reflexivity.
Qed.
Lemma read_sign_inv l neg r : read_sign l = (neg, r) -> signed l neg r.
Proof.
  unfold signed. destruct l as [|c l]; cbn [read_sign]; [intros H; injection H as <- <-; auto|].
  destruct c as [[] [] [] [] [] [] [] []]; intros H; injection H as <- <-; auto.
Qed.
Lemma wo_app a b : without_underscores (a ++ b) = without_underscores a ++ without_underscores b.
Proof. apply filter_app. Qed.
Lemma digit_keep c : digit c -> negb (Ascii.eqb c "_") = true.
Proof. intros [A B]. destruct (Ascii.eqb_spec c "_") as [->|]; [exfalso; vm_compute in B; lia|reflexivity]. Qed.
Lemma read_digits_inv l : forall acc n prev z m r, read_digits l acc n prev = (z, m, r) ->
  exists b, l = b ++ r /\ Forall digit (without_underscores b) /\ z = digits_value (without_underscores b) acc /\ (m = n + List.length (without_underscores b))%nat.
Proof.
  induction l as [|c l IH]; intros acc n prev z m r H; cbn [read_digits] in H.
  - injection H as <- <- <-. exists []. cbn. rewrite Nat.add_0_r. auto.
  - destruct (is_digit c) eqn:D.
    + apply is_digit_digit in D. destruct (IH _ _ _ _ _ _ H) as (b & -> & F & -> & ->). exists (c :: b). cbn [without_underscores filter]. rewrite (digit_keep c D).
      cbn [digits_value List.length app]. repeat split; auto; [|unfold without_underscores; lia]. unfold digit_val. rewrite (Z.mul_comm 10 acc). reflexivity.
    + destruct (Ascii.eqb c "_" && prev && _) eqn:U; [|injection H as <- <- <-; exists []; cbn; rewrite Nat.add_0_r; auto].
      destruct (IH _ _ _ _ _ _ H) as (b & -> & F & -> & ->). exists (c :: b). apply andb_true_iff in U as [U _]. apply andb_true_iff in U as [U _].
      cbn [without_underscores filter]. rewrite U. cbn [negb app]. auto.
Qed.
Lemma int_read s z : py_int (VStr s) = Ok z ->
  exists b neg r, written_in s b /\ signed b neg r /\ digit_text (without_underscores r) /\
    z = (if neg then - digits_value (without_underscores r) 0 else digits_value (without_underscores r) 0)%Z.
Proof.
  unfold py_int, parse_int_str. intros H. destruct (read_sign (strip (chars s))) as [neg l] eqn:S. destruct (read_digits l 0 0 false) as [[z' m] r] eqn:D.
  destruct (read_digits_inv _ _ _ _ _ _ _ D) as (b & E & F & Z' & M). destruct m as [|m]; [discriminate|]. destruct r; [|discriminate]. injection H as <-.
  rewrite app_nil_r in E. subst b. exists (strip (chars s)), neg, l. split; [apply strip_split|]. split; [apply read_sign_inv, S|]. split.
  - split; [|exact F]. intros X. rewrite X in M. discriminate M.
  - rewrite Z'. reflexivity.
Qed.
Lemma word_is l w : chars_eqb l w = true -> word_text l w.
Proof.
  unfold chars_eqb, word_text. intros H. apply String.eqb_eq in H. rewrite <- H. symmetry. apply list_ascii_of_string_of_list_ascii.
Qed.
Lemma lower_e c : Ascii.eqb (lower c) "e" = true -> c = "e"%char \/ c = "E"%char.
Proof. intros H. destruct c as [[] [] [] [] [] [] [] []]; vm_compute in H; try discriminate; auto. Qed.
(** the number is stored unless a double cannot hold it *)
Definition stored_float (neg : bool) (x : Q) (f : pyfloat) : Prop :=
  (in_range x /\ exists y, f = FFin y /\ (y == if neg then - x else x)%Q) \/ (~ in_range x /\ (f = FInf \/ f = FNegInf)).
Lemma mk_float_stored (neg : bool) q x : (q == x)%Q -> stored_float neg x ((if neg then fneg else (fun f => f)) (mk_float q)).
Proof.
  intros E. unfold stored_float, mk_float. destruct (Qle_bool float_overflow q) eqn:A.
  - right. apply Qle_bool_iff in A. rewrite E in A. split; [intros [_ R]; apply (Qlt_not_le _ _ R A)|]. destruct neg; auto.
  - destruct (Qle_bool q (- float_overflow)) eqn:B.
    + right. apply Qle_bool_iff in B. rewrite E in B. split; [intros [R _]; apply (Qlt_not_le _ _ R B)|]. destruct neg; auto.
    + left. split; [split|].
      * apply Qnot_le_lt. intros X. rewrite <- E in X. apply Qle_bool_iff in X. unfold float_overflow in B. congruence.
      * apply Qnot_le_lt. intros X. rewrite <- E in X. apply Qle_bool_iff in X. unfold float_overflow in A. congruence.
      * destruct neg; eexists; (split; [reflexivity|]); rewrite E; reflexivity.
Qed.
Lemma float_read_inv s f : py_float (VStr s) = Ok f ->
  exists b neg r, written_in s b /\ signed b neg r /\
    ((word_text r "inf" \/ word_text r "infinity") /\ f = (if neg then FNegInf else FInf) \/
     word_text r "nan" /\ f = FNaN \/
     exists x, number_text (without_underscores r) x /\ stored_float neg x f).
Proof.
  unfold py_float, parse_float_str. intros H. destruct (read_sign (strip (chars s))) as [neg l] eqn:S.
  exists (strip (chars s)), neg, l. split; [apply strip_split|]. split; [apply read_sign_inv, S|].
  destruct (chars_eqb l "inf" || chars_eqb l "infinity") eqn:W1.
  { left. apply orb_true_iff in W1. split; [destruct W1 as [W|W]; apply word_is in W; auto|]. injection H as <-. destruct neg; reflexivity. }
  destruct (chars_eqb l "nan") eqn:W2; [right; left; split; [apply word_is, W2|injection H as <-; reflexivity]|]. right; right. clear W1 W2.
  destruct (read_digits l 0 0 false) as [[ip ni] l1] eqn:D1. destruct (read_digits_inv _ _ _ _ _ _ _ D1) as (b1 & E1 & F1 & Z1 & M1).
  cbv zeta in H. assert (X : exists point fs m nf l2, l1 = point ++ l2 /\ Forall digit fs /\ (without_underscores point = "."%char :: fs \/ (without_underscores point = [] /\ fs = [])) /\
    m = digits_value fs ip /\ nf = List.length fs /\
    (match l1 with "."%char :: r => read_digits r ip 0 false | _ => (ip, O, l1) end) = (m, nf, l2)).
  { destruct l1 as [|c l1]; [exists [], [], ip, O, []; repeat split; auto|]. destruct (Ascii.eqb_spec c ".") as [->|N].
    - destruct (read_digits l1 ip 0 false) as [[m nf] l2] eqn:D2. destruct (read_digits_inv _ _ _ _ _ _ _ D2) as (b2 & E2 & F2 & Z2 & M2).
      exists ("."%char :: b2), (without_underscores b2), m, nf, l2. cbn [app]. split; [congruence|]. split; [exact F2|]. split; [left; reflexivity|]. split; [exact Z2|]. split; [exact M2|reflexivity].
    - exists [], [], ip, O, (c :: l1). repeat split; auto. destruct c as [[] [] [] [] [] [] [] []]; try reflexivity. congruence. }
  destruct X as (point & fs & m & nf & l2 & El1 & Ff & Pt & Em & En & X). rewrite X in H. clear X D1.
  destruct (Nat.eqb_spec (ni + nf) 0) as [|NZ]; [discriminate|].
  assert (NE : without_underscores b1 ++ fs <> []).
  { intros Q. apply app_eq_nil in Q as [Q1 Q2]. rewrite Q1 in M1. rewrite Q2 in En. cbn in *. lia. }
  assert (Y : forall ex e q, l2 = ex -> exponent_text (without_underscores ex) e -> (q == inject_Z m * Q10pow (e - Z.of_nat nf))%Q ->
    exists x, number_text (without_underscores l) x /\ (q == x)%Q).
  { intros ex e q El2 EX EQ. exists (decimal (without_underscores b1) fs * 10 ^ e)%Q. split.
    - exists (without_underscores b1), fs, (without_underscores point), (without_underscores ex), e. rewrite E1, El1, El2, !wo_app.
      repeat split; auto.
    - rewrite EQ, Em, En, Z1. apply exp_value. }
  assert (SG : forall a, (if neg then fneg a else a) = (if neg then fneg else fun f => f) a) by (intros; destruct neg; reflexivity).
  destruct l2 as [|c l2].
  - destruct (Y [] 0%Z _ eq_refl (or_introl (conj eq_refl eq_refl)) (Qeq_refl _)) as (x & NT & Eq). rewrite SG in H. injection H as <-.
    exists x. split; [exact NT|]. apply mk_float_stored. exact Eq.
  - destruct (Ascii.eqb (lower c) "e") eqn:LE; [|discriminate]. apply lower_e in LE.
    destruct (read_sign l2) as [eneg r1] eqn:SE. destruct (read_digits r1 0 0 false) as [[e ne] r2] eqn:DE.
    destruct (read_digits_inv _ _ _ _ _ _ _ DE) as (b3 & E3 & F3 & Z3 & M3). destruct ne as [|ne]; [discriminate|]. destruct r2; [|discriminate].
    rewrite app_nil_r in E3. subst b3. rewrite SG in H. injection H as <-. apply read_sign_inv in SE.
    assert (EX : exponent_text (without_underscores (c :: l2)) (if eneg then - e else e)%Z).
    { right. exists c, (without_underscores l2), eneg, (without_underscores r1).
      assert (KC : without_underscores (c :: l2) = c :: without_underscores l2) by (destruct LE as [->| ->]; reflexivity).
      split; [exact KC|]. split; [exact LE|]. split; [|split].
      * destruct SE as [[-> [->| ->]]|[-> ->]]; [left; auto|left; split; [reflexivity|right; reflexivity]|right; auto].
      * split; [|exact F3]. intros Q. rewrite Q in M3. discriminate M3.
      * rewrite Z3. reflexivity. }
    destruct (Y (c :: l2) _ _ eq_refl EX (Qeq_refl _)) as (x & NT & Eq).
    exists x. split; [exact NT|]. apply mk_float_stored. exact Eq.
Qed.

(** Whole numbers written as text *)
Lemma value_acc d : forall p, Forall digit (list_ascii_of_string (NilEmpty.string_of_uint d)) /\
  digits_value (list_ascii_of_string (NilEmpty.string_of_uint d)) (Zpos p) = Zpos (Pos.of_uint_acc d p).
Proof.
  induction d as [|d IH|d IH|d IH|d IH|d IH|d IH|d IH|d IH|d IH|d IH]; intros p; cbn [NilEmpty.string_of_uint list_ascii_of_string digits_value Pos.of_uint_acc]; [split; [constructor|reflexivity]|..].
  all: match goal with IH : forall p : positive, _ |- _ /\ _ = Zpos (Pos.of_uint_acc _ ?q) => destruct (IH q) as [F E] end; split; [constructor; [split; vm_compute; lia|exact F]|].
  all: match goal with E : _ = Zpos (Pos.of_uint_acc _ ?q) |- _ => rewrite <- E end.
  all: match goal with |- digits_value _ (_ + (Z.of_nat (nat_of_ascii ?c) - 48)) = digits_value _ ?b =>
    let n := eval vm_compute in (Z.of_nat (nat_of_ascii c)) in change (Z.of_nat (nat_of_ascii c)) with n; f_equal; lia end.
Qed.
Lemma value_of_digits d : Forall digit (list_ascii_of_string (NilEmpty.string_of_uint d)) /\
  digits_value (list_ascii_of_string (NilEmpty.string_of_uint d)) 0 = Z.of_N (Pos.of_uint d).
Proof.
  induction d as [|d IH|d IH|d IH|d IH|d IH|d IH|d IH|d IH|d IH|d IH]; cbn [NilEmpty.string_of_uint list_ascii_of_string digits_value Pos.of_uint]; [split; [constructor|reflexivity]|..].
  - destruct IH as [F E]. split; [constructor; [split; vm_compute; lia|exact F]|exact E].
  - destruct (value_acc d 1) as [F E]. split; [constructor; [split; vm_compute; lia|exact F]|exact E].
  - destruct (value_acc d 2) as [F E]. split; [constructor; [split; vm_compute; lia|exact F]|exact E].
  - destruct (value_acc d 3) as [F E]. split; [constructor; [split; vm_compute; lia|exact F]|exact E].
  - destruct (value_acc d 4) as [F E]. split; [constructor; [split; vm_compute; lia|exact F]|exact E].
  - destruct (value_acc d 5) as [F E]. split; [constructor; [split; vm_compute; lia|exact F]|exact E].
  - destruct (value_acc d 6) as [F E]. split; [constructor; [split; vm_compute; lia|exact F]|exact E].
  - destruct (value_acc d 7) as [F E]. split; [constructor; [split; vm_compute; lia|exact F]|exact E].
  - destruct (value_acc d 8) as [F E]. split; [constructor; [split; vm_compute; lia|exact F]|exact E].
  - destruct (value_acc d 9) as [F E]. split; [constructor; [split; vm_compute; lia|exact F]|exact E].
Qed.
Lemma uint_text u : digit_text (list_ascii_of_string (NilZero.string_of_uint u)) /\
  digits_value (list_ascii_of_string (NilZero.string_of_uint u)) 0 = Z.of_uint u.
Proof.
  destruct (value_of_digits u) as [F E]. unfold Z.of_uint. destruct u; cbn [NilZero.string_of_uint].
  1: { split; [split; [discriminate|constructor; [split; vm_compute; lia|constructor]]|reflexivity]. }
  all: split; [split; [discriminate|exact F]|exact E].
Qed.
Lemma decimal_text z : int_text (string_of_Z z) z.
Proof.
  unfold string_of_Z. rewrite <- (DecimalZ.of_to z) at 2. destruct (Z.to_int z) as [u|u]; cbn [NilZero.string_of_int Z.of_int];
    destruct (uint_text u) as [D E]; rewrite <- E.
  - apply int_pos; [reflexivity|exact D].
  - apply int_neg; [reflexivity|exact D].
Qed.

(** Text given for a number is only accepted when it is a number (blanks around it, a sign, underscores between digits, a point and an exponent
    are allowed), and the number stored is the one that is written. *)
Lemma C55_text_is_number_pf : forall o template user out tree p node s v,
  distinct_keys template -> check_params o template user = Ok (out, tree) ->
  param_at template p node -> lookup user p = Some (VStr s) -> lookup out p = Some v ->
  ~ (may_be_false node /\ falsy_value (VStr s)) ->
  (has_type node "int" -> exists b neg r, written_in s b /\ signed b neg r /\ digit_text (without_underscores r) /\
     v = VInt (if neg then - digits_value (without_underscores r) 0 else digits_value (without_underscores r) 0)%Z) /\
  (has_type node "float" -> exists b neg r f, written_in s b /\ signed b neg r /\ v = VFloat f /\
     ((word_text r "inf" \/ word_text r "infinity") /\ f = (if neg then FNegInf else FInf) \/
      word_text r "nan" /\ f = FNaN \/
      exists x, number_text (without_underscores r) x /\ stored_float neg x f)).
Proof.
  intros o template user out tree p node s v Hd Hc Hp Hu Hv NF.
  destruct (param_stored _ _ _ _ _ _ _ Hd Hc Hp) as [pr [v' [H1 [H2 H3]]]]. rewrite Hu in H3. rewrite Hv in H2. injection H2 as <-.
  destruct (create_parser_fields _ _ H1) as [_ [Fc _]].
  assert (T : forall t ty, has_type node t -> type_lookup parser_types t = Some ty -> p_type pr = ty).
  { intros t ty Ht E. pose proof (has_type_lookup _ _ _ H1 Ht). congruence. }
  destruct pr as [ty dd c mn mx al u vp kp]. cbn [p_type p_cbf] in *. cbn [parse] in H3.
  assert (C : c && is_falsy (VStr s) = false).
  { destruct (c && is_falsy (VStr s)) eqn:E; [|reflexivity]. exfalso. apply andb_true_iff in E as [E1 E2]. apply NF. split; [apply Fc, E1|apply falsy_iff, E2]. }
  rewrite C in H3. split; intros Ht.
  - rewrite (T _ TInt Ht eq_refl) in H3. destruct (py_int (VStr s)) as [z|] eqn:Z; [|discriminate]. cbn [bind] in H3. apply check_bounds_id in H3. subst v.
    destruct (int_read s z Z) as (b & neg & r & W & S & D & ->). exists b, neg, r. auto.
  - rewrite (T _ TFloat Ht eq_refl) in H3. destruct (py_float (VStr s)) as [f|] eqn:Z; [|discriminate]. cbn [bind] in H3. apply check_bounds_id in H3. subst v.
    destruct (float_read_inv s f Z) as (b & neg & r & W & S & D). exists b, neg, r, f. auto.
Qed.

(** True and false given for a number are 1 and 0; given for a text they are written out, like whole numbers. *)
Lemma C55_other_kinds_pf : forall o template user out tree p node raw v,
  distinct_keys template -> check_params o template user = Ok (out, tree) ->
  param_at template p node -> lookup user p = Some raw -> lookup out p = Some v ->
  ~ (may_be_false node /\ falsy_value raw) ->
  (forall b : bool, raw = VBool b ->
     (has_type node "int" -> v = VInt (if b then 1 else 0)) /\
     (has_type node "float" -> exists x, v = VFloat (FFin x) /\ (x == if b then 1 else 0)%Q) /\
     (has_type node "str" \/ has_type node "filepath" \/ has_type node "str_or_plain_dict" -> v = VStr (if b then "True" else "False"))) /\
  (forall z, raw = VInt z -> has_type node "str" \/ has_type node "filepath" \/ has_type node "str_or_plain_dict" -> exists s, v = VStr s /\ int_text s z) /\
  (forall s, raw = VStr s -> has_type node "str_or_plain_dict" -> v = raw) /\
  (forall d, raw = VDict d -> has_type node "str_or_plain_dict" -> v = raw) /\
  (* everything else is no number *)
  ((exists l, raw = VList l) \/ (exists d, raw = VDict d) \/ raw = VNone -> ~ has_type node "int" /\ ~ has_type node "float" /\ ~ has_type node "bool").
Proof.
  intros o template user out tree p node raw v Hd Hc Hp Hu Hv NF.
  destruct (param_stored _ _ _ _ _ _ _ Hd Hc Hp) as [pr [v' [H1 [H2 H3]]]]. rewrite Hu in H3. rewrite Hv in H2. injection H2 as <-.
  destruct (create_parser_fields _ _ H1) as [_ [Fc _]].
  assert (T : forall t ty, has_type node t -> type_lookup parser_types t = Some ty -> p_type pr = ty).
  { intros t ty Ht E. pose proof (has_type_lookup _ _ _ H1 Ht). congruence. }
  destruct pr as [ty dd c mn mx al u vp kp]. cbn [p_type p_cbf] in *. cbn [parse] in H3.
  assert (C : c && is_falsy raw = false).
  { destruct (c && is_falsy raw) eqn:E; [|reflexivity]. exfalso. apply andb_true_iff in E as [E1 E2]. apply NF. split; [apply Fc, E1|apply falsy_iff, E2]. }
  rewrite C in H3. repeat split.
  - intros Ht. subst raw. rewrite (T _ TInt Ht eq_refl) in H3. cbn [py_int bind] in H3. apply check_bounds_id in H3. exact H3.
  - intros Ht. subst raw. rewrite (T _ TFloat Ht eq_refl) in H3. cbn [py_float bind] in H3. apply check_bounds_id in H3. exists (if b then 1 else 0)%Q. split; [exact H3|destruct b; reflexivity].
  - intros [Ht|[Ht|Ht]]; subst raw; [rewrite (T _ TStr Ht eq_refl) in H3|rewrite (T _ TFilepath Ht eq_refl) in H3|rewrite (T _ TStrOrPlainDict Ht eq_refl) in H3];
      injection H3 as <-; destruct b; reflexivity.
  - intros z -> [Ht|[Ht|Ht]]; [rewrite (T _ TStr Ht eq_refl) in H3|rewrite (T _ TFilepath Ht eq_refl) in H3|rewrite (T _ TStrOrPlainDict Ht eq_refl) in H3];
      injection H3 as <-; exists (string_of_Z z); split; try reflexivity; apply decimal_text.
  - intros s -> Ht. rewrite (T _ TStrOrPlainDict Ht eq_refl) in H3. injection H3 as <-. reflexivity.
  - intros d -> Ht. rewrite (T _ TStrOrPlainDict Ht eq_refl) in H3. injection H3 as <-. reflexivity.
  - intros Ht. rewrite (T _ TInt Ht eq_refl) in H3. destruct H as [[l ->]|[[d ->]| ->]]; discriminate H3.
  - intros Ht. rewrite (T _ TFloat Ht eq_refl) in H3. destruct H as [[l ->]|[[d ->]| ->]]; discriminate H3.
  - intros Ht. rewrite (T _ TBool Ht eq_refl) in H3. destruct H as [[l ->]|[[d ->]| ->]]; discriminate H3.
Qed.

(** non-vacuity: a text that is accepted, and one that is not *)
Example C55_text_ex : py_int (VStr " -2_100 ") = Ok (-2100)%Z /\ py_int (VStr "12abc") = Err ValueError /\ py_float (VStr "1.5e3x") = Err ValueError /\
  (exists f, py_float (VStr "+1_0.5e-1") = Ok (FFin f) /\ (f == 105 # 100)%Q).
Proof.
  split; [vm_compute; reflexivity|]. split; [vm_compute; reflexivity|]. split; [vm_compute; reflexivity|].
  destruct (py_float (VStr "+1_0.5e-1")) as [[f| | |]|] eqn:E; try (vm_compute in E; discriminate). exists f. split; [reflexivity|]. vm_compute in E. injection E as <-. reflexivity.
Qed.

(** The default of a parameter with listed values is itself one of these values. *)
Lemma C04_enum_default_listed_pf : forall o template user st p node, distinct_keys template -> check_params o template user = Ok st ->
  param_at template p node -> has_type node "enum" ->
  exists l w, entry node "values" = Some (VList l) /\ In w l /\ py_eqb (default_of node) w = true.
Proof.
  intros o template user [out tree] p node Hd Hc Hp Ht.
  destruct (param_stored _ _ _ _ _ _ _ Hd Hc Hp) as [pr [v' [H1 _]]].
  destruct node as [| | | | | |d]; try discriminate H1. unfold has_type in Ht. cbn [create_parser] in H1.
  unfold entry, default_of in *. cbn [lookup] in *.
  destruct (dget d (KStr "type")) as [ty|] eqn:E; [|discriminate]. injection Ht as ->. cbn [type_lookup parser_types String.eqb Ascii.eqb Bool.eqb] in H1.
  destruct (dget d (KStr "values")) as [[| | | | |l|]|] eqn:E2; try discriminate.
  destruct (py_in (dget_or d "default" VNone) l) eqn:E3; [|discriminate]. unfold py_in in E3. apply existsb_exists in E3 as (w & W1 & W2).
  exists l, w. split; [reflexivity|]. split; [exact W1|exact W2].
Qed.
