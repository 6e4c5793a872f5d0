(** Default-unit placeholders disappear (model: Parsers.parse_default_units). *)
From Coq Require Import Lia.
From Verif Require Import PyBase Parsers.

Fixpoint str_drop (n : nat) (s : string) : string :=
  match n, s with
  | O, _ => s
  | S k, String _ r => str_drop k r
  | S _, EmptyString => EmptyString
  end.

Fixpoint char_free (c : ascii) (s : string) : bool :=
  match s with EmptyString => true | String a r => negb (Ascii.eqb a c) && char_free c r end.

Lemma prefix_empty s : String.prefix "" s = true.
Proof. destruct s; reflexivity. Qed.
Lemma prefix_cons a p b s : String.prefix (String a p) (String b s) = true <-> a = b /\ String.prefix p s = true.
Proof. simpl. destruct (ascii_dec a b); split; intuition congruence. Qed.

Lemma contains_cons p c s : str_contains p (String c s) = true <->
  String.prefix p (String c s) = true \/ str_contains p s = true.
Proof. cbn [str_contains]. rewrite orb_true_iff. tauto. Qed.

Lemma contains_drop p n s : str_contains p (str_drop n s) = true -> str_contains p s = true.
Proof.
  revert s; induction n as [|n IH]; intros s H; [exact H|]. destruct s as [|c s]; [exact H|].
  apply contains_cons. right. apply IH, H.
Qed.

Lemma replace_aux_skip old new n s : replace_aux old new n s = replace_aux old new 0 (str_drop n s).
Proof.
  revert s; induction n as [|n IH]; intros s; [reflexivity|]. destruct s as [|c s]; [reflexivity|].
  cbn [replace_aux str_drop]. apply IH.
Qed.

Lemma str_drop_length n s : (String.length (str_drop n s) <= String.length s)%nat.
Proof. revert s; induction n as [|n IH]; intros [|c s]; simpl; auto. Qed.

(** a pattern without character [c] cannot straddle a [c] *)
Lemma prefix_sep p c a b : char_free c p = true ->
  String.prefix p (a ++ String c b) = true -> String.prefix p a = true.
Proof.
  revert a; induction p as [|x p IH]; intros a Hf H; [apply prefix_empty|].
  cbn [char_free] in Hf. apply andb_true_iff in Hf. destruct Hf as [Hx Hf].
  destruct a as [|y a].
  - cbn [append] in H. apply prefix_cons in H. destruct H as [-> _]. rewrite Ascii.eqb_refl in Hx. discriminate.
  - cbn [append] in H. apply prefix_cons in H. destruct H as [-> H]. apply prefix_cons. split; auto.
Qed.
Lemma contains_sep p c a b : p <> ""%string -> char_free c p = true ->
  str_contains p (a ++ String c b) = true -> str_contains p a = true \/ str_contains p b = true.
Proof.
  intros Hne Hf. induction a as [|y a IH]; intros H.
  - cbn [append] in H. apply contains_cons in H. destruct H as [H|H]; [|auto].
    destruct p as [|x p]; [congruence|]. apply prefix_cons in H. destruct H as [-> _].
    cbn [char_free] in Hf. rewrite Ascii.eqb_refl in Hf. discriminate.
  - cbn [append] in H. apply contains_cons in H. destruct H as [H|H].
    + left. apply contains_cons. left. change (String y (a ++ String c b)) with (String y a ++ String c b)%string in H.
      eapply prefix_sep; eauto.
    + destruct (IH H) as [H'|H']; [left; apply contains_cons; auto | auto].
Qed.

Lemma append_assoc' a b c : ((a ++ b) ++ c)%string = (a ++ (b ++ c))%string.
Proof. induction a as [|x a IH]; simpl; [reflexivity|]. rewrite IH. reflexivity. Qed.

Definition paren_free (p : string) : bool := char_free "(" p && char_free ")" p.

Lemma prefix_replace old v p s : paren_free p = true ->
  String.prefix p (replace_aux old ("(" ++ v ++ ")") 0 s) = true -> String.prefix p s = true.
Proof.
  unfold paren_free. revert p; induction s as [|c s IH]; intros p Hf H; [exact H|].
  cbn [replace_aux] in H. destruct (String.prefix old (String c s)) eqn:E.
  - destruct p as [|x p]; [reflexivity|]. cbn [append] in H. apply prefix_cons in H. destruct H as [-> _].
    cbn [char_free] in Hf. discriminate.
  - destruct p as [|x p]; [reflexivity|]. apply prefix_cons in H. destruct H as [-> H].
    apply prefix_cons. split; [reflexivity|]. apply IH; [|assumption].
    cbn [char_free] in Hf. rewrite !andb_true_iff in Hf. apply andb_true_iff. tauto.
Qed.

Lemma contains_replace old v p s : p <> ""%string -> paren_free p = true ->
  str_contains p (replace_aux old ("(" ++ v ++ ")") 0 s) = true ->
  str_contains p v = true \/ (str_contains p s = true /\ p <> old).
Proof.
  intros Hne Hf. assert (Hf1 : char_free "(" p = true /\ char_free ")" p = true)
    by (unfold paren_free in Hf; apply andb_true_iff in Hf; assumption).
  destruct Hf1 as [Hf1 Hf2].
  remember (String.length s) as n eqn:Hn. assert (Hle : (String.length s <= n)%nat) by lia. clear Hn.
  revert s Hle. induction n as [|n IH]; intros s Hle H.
  - destruct s as [|c s]; [|simpl in Hle; lia]. simpl in H. destruct p; [congruence|discriminate].
  - destruct s as [|c s]; [simpl in H; destruct p; [congruence|discriminate]|].
    cbn [replace_aux] in H. destruct (String.prefix old (String c s)) eqn:E.
    + rewrite replace_aux_skip in H.
      change ("(" ++ v ++ ")")%string with (String "(" (v ++ ")"))%string in H. cbn [append] in H.
      apply contains_cons in H. destruct H as [H|H].
      * destruct p as [|x p]; [congruence|]. apply prefix_cons in H. destruct H as [-> _]. discriminate.
      * rewrite append_assoc' in H. cbn [append] in H. apply contains_sep in H; [|assumption|assumption].
        destruct H as [H|H]; [auto|].
        apply IH in H.
        -- destruct H as [H|[H1 H2]]; [auto|]. right. split; [|assumption]. apply contains_cons. right.
           eapply contains_drop; eassumption.
        -- pose proof (str_drop_length (String.length old - 1) s). simpl in Hle. lia.
    + apply contains_cons in H. destruct H as [H|H].
      * assert (Hp : String.prefix p (String c s) = true).
        { apply (prefix_replace old v); [assumption|]. cbn [replace_aux]. rewrite E. exact H. }
        right. split; [apply contains_cons; auto|]. intros ->. congruence.
      * apply IH in H; [|simpl in Hle; lia]. destruct H as [H|[H1 H2]]; [auto|].
        right. split; [apply contains_cons; auto|assumption].
Qed.

(** "year" -> "yr" cannot create a pattern that neither contains "yr", nor starts with 'r', nor
    ends with 'y' *)
Fixpoint ends_y (p : string) : bool :=
  match p with
  | EmptyString => false
  | String c EmptyString => Ascii.eqb c "y"
  | String _ r => ends_y r
  end.
Definition starts_r (p : string) : bool := match p with String c _ => Ascii.eqb c "r" | _ => false end.

Lemma ends_y_tail c p : ends_y (String c p) = false -> ends_y p = false.
Proof. destruct p; [reflexivity|]. cbn [ends_y]. auto. Qed.
Lemma contains_tail_false p c s : str_contains p (String c s) = false -> str_contains p s = false.
Proof. cbn [str_contains]. rewrite orb_false_iff. tauto. Qed.

Lemma prefix_year p s : str_contains "yr" p = false -> ends_y p = false ->
  String.prefix p (replace_aux "year" "yr" 0 s) = true -> String.prefix p s = true.
Proof.
  revert p; induction s as [|c s IH]; intros p Hc He H; [exact H|].
  cbn [replace_aux] in H. destruct (String.prefix "year" (String c s)) eqn:E.
  - destruct p as [|x p]; [reflexivity|]. cbn [append] in H. apply prefix_cons in H. destruct H as [-> H].
    destruct p as [|y p]; [discriminate He|]. apply prefix_cons in H. destruct H as [-> H].
    exfalso. cbn [str_contains] in Hc. apply orb_false_iff in Hc. destruct Hc as [Hc _].
    cbn in Hc. destruct p; discriminate Hc.
  - destruct p as [|x p]; [reflexivity|]. apply prefix_cons in H. destruct H as [-> H].
    apply prefix_cons. split; [reflexivity|]. apply IH; eauto using ends_y_tail, contains_tail_false.
Qed.

Lemma contains_year p s : p <> ""%string -> str_contains "yr" p = false -> ends_y p = false -> starts_r p = false ->
  str_contains p (replace_aux "year" "yr" 0 s) = true -> str_contains p s = true.
Proof.
  intros Hne Hc He Hr. remember (String.length s) as n eqn:Hn.
  assert (Hle : (String.length s <= n)%nat) by lia. clear Hn.
  revert s Hle. induction n as [|n IH]; intros s Hle H.
  - destruct s as [|c s]; [exact H|simpl in Hle; lia].
  - destruct s as [|c s]; [exact H|].
    assert (Hpre := prefix_year p (String c s) Hc He).
    cbn [replace_aux] in H, Hpre. destruct (String.prefix "year" (String c s)) eqn:E.
    + apply contains_cons in H. destruct H as [H|H]; [apply contains_cons; left; apply Hpre, H|].
      cbn [append] in H. apply contains_cons in H. destruct H as [H|H].
      * destruct p as [|x p]; [congruence|]. apply prefix_cons in H. destruct H as [-> _]. discriminate Hr.
      * rewrite replace_aux_skip in H. apply IH in H.
        -- apply contains_cons. right. eapply contains_drop; eassumption.
        -- pose proof (str_drop_length (String.length "year" - 1) s). simpl in Hle. lia.
    + apply contains_cons in H. destruct H as [H|H]; [apply contains_cons; left; apply Hpre, H|].
      apply contains_cons. right. apply IH; [simpl in Hle; lia|assumption].
Qed.

Definition placeholders : list string :=
  ["currency_unit"; "emissionsrate_unit"; "emissions_unit"; "temperature_unit"; "population_unit"].

Lemma contains_replace_neg old v p s : p <> ""%string -> paren_free p = true -> old <> ""%string ->
  str_contains p v = false -> (p = old \/ str_contains p s = false) ->
  str_contains p (str_replace s old ("(" ++ v ++ ")")) = false.
Proof.
  intros Hne Hf Ho Hv Hs. unfold str_replace. apply String.eqb_neq in Ho. rewrite Ho.
  apply not_true_iff_false. intros H. apply contains_replace in H; [|assumption|assumption].
  destruct H as [H|[H1 H2]]; [congruence|]. destruct Hs; congruence.
Qed.

Lemma no_placeholder_left u p : In p placeholders -> str_contains p (parse_default_units u) = false.
Proof.
  intros Hp. apply not_true_iff_false. intros H. unfold parse_default_units in H.
  unfold str_replace at 1 in H. cbn [String.eqb] in H.
  apply contains_year in H;
    [| cbn in Hp; intuition; subst; discriminate
     | cbn in Hp; intuition; subst; reflexivity
     | cbn in Hp; intuition; subst; reflexivity
     | cbn in Hp; intuition; subst; reflexivity].
  revert H. apply not_true_iff_false. unfold default_units. cbn [fold_left fst snd].
  cbn in Hp. destruct Hp as [<-|[<-|[<-|[<-|[<-|[]]]]]];
    repeat (apply contains_replace_neg;
            [discriminate | reflexivity | discriminate | reflexivity | first [left; reflexivity | right]]).
Qed.
