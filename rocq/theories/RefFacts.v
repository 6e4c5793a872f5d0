(** References in strings: findall and replace on "pre{m}post". *)
From Coq Require Import Lia.
From Verif Require Import PyBase UnitsFacts ConfigSpec.

Lemma ref_at_no_brace c r : c <> "{"%char -> ref_at (String c r) = None.
Proof.
  intros H. destruct c as [[] [] [] [] [] [] [] []]; try reflexivity. exfalso; apply H; reflexivity.
Qed.
Lemma findall_no_brace s : no_brace s -> findall_refs s = [].
Proof.
  unfold no_brace, findall_refs. induction s as [|c r IH]; [reflexivity|]. intros [Hc Hr].
  cbn [findall_refs_aux]. rewrite ref_at_no_brace by assumption. auto.
Qed.
Lemma findall_app_no_brace pre s : no_brace pre -> findall_refs (pre ++ s) = findall_refs s.
Proof.
  unfold no_brace, findall_refs. induction pre as [|c r IH]; [reflexivity|]. intros [Hc Hr].
  cbn [append findall_refs_aux]. rewrite ref_at_no_brace by assumption. auto.
Qed.
Lemma findall_skip n s : findall_refs_aux n s = findall_refs_aux 0 (str_drop n s).
Proof.
  revert s; induction n as [|n IH]; intros s; [reflexivity|]. destruct s as [|c s]; [reflexivity|].
  cbn [findall_refs_aux str_drop]. apply IH.
Qed.
Lemma ref_char_spec c : (let n := nat_of_ascii c in
     (48 <= n <= 57 \/ 65 <= n <= 90 \/ 97 <= n <= 122)%nat \/ c = "_"%char \/ c = " "%char \/ c = "-"%char) ->
  ref_char c = true.
Proof.
  cbv zeta. unfold ref_char, is_word, is_digit, char_in. intros H.
  repeat rewrite orb_true_iff. repeat rewrite andb_true_iff. repeat rewrite Nat.leb_le. repeat rewrite Ascii.eqb_eq.
  intuition.
Qed.
Lemma span_ref m rest : all_chars (fun c => ref_char c = true) m -> span ref_char (m ++ String "}" rest) = (m, String "}" rest).
Proof.
  induction m as [|c m IH]; intros H; [reflexivity|]. destruct H as [Hc Hm].
  cbn [append span]. rewrite Hc, IH by assumption. reflexivity.
Qed.
Lemma all_chars_impl (P Q : ascii -> Prop) s : (forall c, P c -> Q c) -> all_chars P s -> all_chars Q s.
Proof. intros H. induction s as [|c s IH]; [auto|]. intros [H1 H2]; split; auto. Qed.
Lemma str_drop_app m s : str_drop (String.length m) (m ++ s) = s.
Proof. induction m as [|c m IH]; [destruct s; reflexivity|]. exact IH. Qed.
Lemma str_drop_plus a b s : str_drop (a + b) s = str_drop b (str_drop a s).
Proof.
  revert s; induction a as [|a IH]; intros s; [reflexivity|]. destruct s as [|c s]; [|apply IH].
  simpl. destruct b; reflexivity.
Qed.

Lemma findall_with_ref pre m post : no_brace pre -> ref_name m -> no_brace post ->
  findall_refs (with_ref pre m post) = [m].
Proof.
  intros Hpre [Hne Hm] Hpost. unfold with_ref. rewrite findall_app_no_brace by assumption.
  apply (all_chars_impl _ (fun c => ref_char c = true)) in Hm; [|apply ref_char_spec].
  unfold findall_refs. change ("{" ++ m ++ "}" ++ post)%string with (String "{" (m ++ String "}" post)).
  cbn [findall_refs_aux].
  assert (Hr : ref_at (String "{" (m ++ String "}" post)) = Some m).
  { cbn [ref_at]. rewrite span_ref by assumption. destruct m; [congruence|reflexivity]. }
  rewrite Hr, findall_skip, str_drop_plus, str_drop_app.
  cbn [str_drop]. f_equal. apply findall_no_brace, Hpost.
Qed.

Lemma replace_no_match old new c s rest : old = String c s -> no_brace rest -> c = "{"%char ->
  replace_aux old new 0 rest = rest.
Proof.
  intros -> H ->. induction rest as [|a r IH]; [reflexivity|]. destruct H as [Ha Hr].
  cbn [replace_aux]. destruct (String.prefix (String "{" s) (String a r)) eqn:E.
  - apply prefix_cons in E. destruct E; congruence.
  - f_equal; auto.
Qed.
Lemma prefix_self_app a b : String.prefix a (a ++ b) = true.
Proof. induction a as [|c a IH]; [apply prefix_empty|]. cbn [append]. apply prefix_cons; auto. Qed.
Lemma replace_with_ref pre m post other : no_brace pre -> no_brace post ->
  str_replace (with_ref pre m post) ("{" ++ m ++ "}") other = (pre ++ other ++ post)%string.
Proof.
  intros Hpre Hpost. unfold str_replace. cbn [append String.eqb]. unfold with_ref.
  induction pre as [|a r IH].
  - cbn [append]. change ("}" ++ post)%string with (String "}" post).
    cbn [replace_aux].
    assert (Hp : String.prefix (String "{" (m ++ "}")) (String "{" (m ++ String "}" post)) = true).
    { change (String "{" (m ++ "}")) with ("{" ++ m ++ "}")%string.
      replace (String "{" (m ++ String "}" post)) with (("{" ++ m ++ "}") ++ post)%string by (rewrite !append_assoc'; reflexivity).
      apply prefix_self_app. }
    rewrite Hp. f_equal. rewrite replace_aux_skip.
    assert (E : str_drop (String.length (String "{" (m ++ "}")) - 1) (m ++ String "}" post) = post).
    { replace (m ++ String "}" post)%string with ((m ++ "}") ++ post)%string by (rewrite append_assoc'; reflexivity).
      cbn [String.length]. rewrite Nat.sub_succ, Nat.sub_0_r. apply str_drop_app. }
    rewrite E. eapply replace_no_match; eauto.
  - destruct Hpre as [Ha Hr]. cbn [append replace_aux].
    destruct (String.prefix (String "{" (m ++ "}")) (String a (r ++ String "{" (m ++ String "}" post)))) eqn:E.
    + apply prefix_cons in E. destruct E; congruence.
    + f_equal. apply IH. assumption.
Qed.

(** ** splitting a joined path *)
Lemma split_skip sep n acc s : split_aux sep n acc s = split_aux sep 0 acc (str_drop n s).
Proof.
  revert s; induction n as [|n IH]; intros s; [reflexivity|]. destruct s as [|c s]; [reflexivity|].
  cbn [split_aux str_drop]. apply IH.
Qed.
Lemma append_nil_r' s : (s ++ "")%string = s.
Proof. induction s as [|c s IH]; [reflexivity|]. simpl. congruence. Qed.
Lemma plain_tail c s : plain (String c s) -> plain s.
Proof. apply contains_tail_false. Qed.
Lemma plain_no s : plain (String " " (String "-" s)) -> False.
Proof.
  unfold plain. intros H. assert (X : str_contains " -" (String " " (String "-" s)) = true); [|congruence].
  apply contains_cons. left. repeat (apply prefix_cons; split; [reflexivity|]). apply prefix_empty.
Qed.
Lemma split_last s : plain s -> forall acc, split_aux " - " 0 acc s = [(acc ++ s)%string].
Proof.
  induction s as [|c s IH]; intros Hp acc; [rewrite append_nil_r'; reflexivity|].
  cbn [split_aux]. destruct (String.prefix " - " (String c s)) eqn:E.
  - exfalso. destruct s as [|c2 s]; [apply prefix_cons in E; destruct E as [_ E]; discriminate E|].
    apply prefix_cons in E. destruct E as [<- E]. apply prefix_cons in E. destruct E as [<- _].
    exact (plain_no _ Hp).
  - rewrite IH by (eapply plain_tail; eauto). rewrite append_assoc'. reflexivity.
Qed.
Lemma split_comp s rest : plain s -> forall acc,
  split_aux " - " 0 acc (s ++ " - " ++ rest) = (acc ++ s)%string :: split_aux " - " 0 "" rest.
Proof.
  induction s as [|c s IH]; intros Hp acc.
  - rewrite append_nil_r'. change ("" ++ " - " ++ rest)%string with (String " " (String "-" (String " " rest))).
    cbn [split_aux].
    assert (X : String.prefix " - " (String " " (String "-" (String " " rest))) = true) by (repeat (apply prefix_cons; split; [reflexivity|]); apply prefix_empty).
    rewrite X. rewrite split_skip. reflexivity.
  - cbn [append split_aux].
    destruct (String.prefix " - " (String c (s ++ " - " ++ rest))) eqn:E.
    + exfalso. apply prefix_cons in E. destruct E as [<- E]. destruct s as [|c2 s].
      * change ("" ++ " - " ++ rest)%string with (String " " (String "-" (String " " rest))) in E.
        apply prefix_cons in E. destruct E; congruence.
      * cbn [append] in E. apply prefix_cons in E. destruct E as [<- _].
        exact (plain_no _ Hp).
    + change (s ++ String " " (String "-" (String " " rest)))%string with (s ++ " - " ++ rest)%string.
      rewrite IH by (eapply plain_tail; eauto). rewrite append_assoc', E. reflexivity.
Qed.
Lemma split_join p : p <> [] -> Forall plain p -> str_split (str_join " - " p) " - " = p.
Proof.
  intros Hne Hp. unfold str_split. induction p as [|s p IH]; [congruence|].
  inversion Hp as [|? ? Hs Hp']; subst. destruct p as [|s2 p].
  - cbn [str_join]. rewrite split_last by assumption. reflexivity.
  - change (str_join " - " (s :: s2 :: p)) with (s ++ " - " ++ str_join " - " (s2 :: p))%string.
    rewrite split_comp by assumption. rewrite IH; [reflexivity|discriminate|assumption].
Qed.
