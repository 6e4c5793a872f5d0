(** C09: what unit texts mean. *)
From Coq Require Import Lia.
From Verif Require Import PyBase Parsers UnitsFacts.
Import ListNotations.
Open Scope string_scope.

(** *** Specification *)
(** A unit text is made of ordinary text (without underscores) and default units. *)
Inductive default_unit := Currency | Emissionsrate | Emissions | Temperature | Population.
Inductive piece := Plain (s : string) | Default (u : default_unit).
(** How a default unit is written in unit texts, and which unit it stands for (inputdata/config/default_units.yaml). *)
Definition unit_word (u : default_unit) : string :=
  match u with
  | Currency => "currency_unit" | Emissionsrate => "emissionsrate_unit" | Emissions => "emissions_unit"
  | Temperature => "temperature_unit" | Population => "population_unit" end.
Definition unit_meant (u : default_unit) : string :=
  match u with
  | Currency => "(trillion USD2005/yr)" | Emissionsrate => "((GtCO2)/yr)" | Emissions => "(GtCO2)"
  | Temperature => "(delta_degC)" | Population => "(billion)" end.
Fixpoint written (l : list piece) : string :=
  match l with [] => "" | Plain s :: r => s ++ written r | Default u :: r => unit_word u ++ written r end.
Fixpoint meant (l : list piece) : string :=
  match l with [] => "" | Plain s :: r => s ++ meant r | Default u :: r => unit_meant u ++ meant r end.
Definition no_underscore (s : string) : Prop := forall a b, s <> a ++ "_" ++ b.

(** *** Proofs *)
Lemma app_assoc_s a b c : ((a ++ b) ++ c) = (a ++ (b ++ c)).
Proof. induction a as [|x a IH]; cbn; [reflexivity|f_equal; exact IH]. Qed.
Lemma drop_app a b : str_drop (String.length a) (a ++ b) = b.
Proof. induction a as [|x a IH]; cbn; auto. Qed.
Lemma prefix_app p s : String.prefix p (p ++ s) = true.
Proof. induction p as [|x p IH]; [apply prefix_empty|]. apply prefix_cons. auto. Qed.
Lemma drop_empty n : str_drop n "" = "".
Proof. destruct n; reflexivity. Qed.
Lemma replace_drop old new n s : replace_aux old new n s = replace_aux old new 0 (str_drop n s).
Proof. apply replace_aux_skip. Qed.
(** no match starts in [a] *)
Definition no_start (old a s : string) : Prop := forall i, (i < String.length a)%nat -> String.prefix old (str_drop i (a ++ s)) = false.
Lemma replace_no_start old new s : forall a, no_start old a s -> replace_aux old new 0 (a ++ s) = (a ++ replace_aux old new 0 s).
Proof.
  induction a as [|x a IH]; intros H; [reflexivity|]. cbn [append replace_aux].
  pose proof (H 0%nat ltac:(cbn; lia)) as H0. cbn [str_drop append] in H0. rewrite H0. f_equal. apply IH.
  intros i L. exact (H (S i) ltac:(cbn; lia)).
Qed.
Lemma replace_match old new s : old <> "" -> replace_aux old new 0 (old ++ s) = new ++ replace_aux old new 0 s.
Proof.
  intros N. destruct old as [|c old]; [congruence|]. cbn [append replace_aux].
  pose proof (prefix_app (String c old) s) as P. cbn [append] in P. rewrite P. f_equal. rewrite replace_drop. cbn [String.length].
  rewrite PeanoNat.Nat.sub_0_r || (replace (S (String.length old) - 1)%nat with (String.length old) by lia). try rewrite PeanoNat.Nat.sub_0_r. rewrite drop_app. reflexivity.
Qed.

(** the text before the first underscore *)
Fixpoint head_seg (s : string) : option string :=
  match s with
  | EmptyString => None
  | String c r => if Ascii.eqb c "_" then Some "" else match head_seg r with Some h => Some (String c h) | None => None end
  end.
Fixpoint uf (s : string) : bool := match s with EmptyString => true | String c r => negb (Ascii.eqb c "_") && uf r end.
Lemma uf_spec s : no_underscore s -> uf s = true.
Proof.
  induction s as [|c s IH]; intros H; [reflexivity|]. cbn. apply andb_true_intro. split.
  - destruct (Ascii.eqb c "_") eqn:E; [|reflexivity]. apply Ascii.eqb_eq in E. subst c. exfalso. exact (H "" s eq_refl).
  - apply IH. intros a b E. apply (H (String c a) b). cbn. f_equal. exact E.
Qed.
Lemma head_app b s : uf b = true -> head_seg (b ++ s) = match head_seg s with Some h => Some (b ++ h) | None => None end.
Proof.
  induction b as [|c b IH]; intros U; cbn; [destruct (head_seg s); reflexivity|]. cbn in U. apply andb_prop in U as [U1 U2].
  destruct (Ascii.eqb c "_"); [discriminate|]. rewrite (IH U2). destruct (head_seg s); reflexivity.
Qed.
Lemma head_under s : head_seg ("_" ++ s) = Some "".
Proof. reflexivity. Qed.
Lemma prefix_split p s : String.prefix p s = true -> exists r, s = p ++ r.
Proof.
  revert s. induction p as [|c p IH]; intros s H; [exists s; reflexivity|]. destruct s as [|d s]; [discriminate|].
  apply prefix_cons in H as [-> H]. destruct (IH _ H) as [r ->]. exists r. reflexivity.
Qed.
Lemma prefix_head k u s : uf k = true -> String.prefix (k ++ "_" ++ u) s = true -> head_seg s = Some k.
Proof.
  intros U H. apply prefix_split in H as [r ->]. rewrite app_assoc_s, (head_app k _ U). cbn. f_equal.
  clear. induction k; cbn; congruence.
Qed.
Lemma uf_drop i : forall s, uf s = true -> uf (str_drop i s) = true.
Proof. induction i as [|i IH]; intros [|c s] H; cbn in *; auto. apply andb_prop in H as [_ H]. auto. Qed.
Lemma drop_app_lt i : forall a s, (i <= String.length a)%nat -> str_drop i (a ++ s) = str_drop i a ++ s.
Proof. induction i as [|i IH]; intros [|c a] s L; cbn in *; auto; try lia. apply IH. lia. Qed.
Lemma drop_app_ge i : forall a s, (String.length a <= i)%nat -> str_drop i (a ++ s) = str_drop (i - String.length a) s.
Proof.
  induction i as [|i IH]; intros [|c a] s L; cbn in *; auto; try lia. apply IH. lia.
Qed.
Lemma drop_nonempty i : forall s, (i < String.length s)%nat -> str_drop i s <> "".
Proof. induction i as [|i IH]; intros [|c s] L; cbn in *; try lia; [discriminate|apply IH; lia]. Qed.

(** Tokens: text without underscore, or a word "x_u". *)
Inductive token := Lit (s : string) | Word (x u : string).
Definition tok_text (t : token) : string := match t with Lit s => s | Word x u => x ++ "_" ++ u end.
Fixpoint text (l : list token) : string := match l with [] => "" | t :: r => tok_text t ++ text r end.
Definition stems : list string := ["currency"; "emissionsrate"; "emissions"; "temperature"; "population"; "delta"].
Definition proper_suffix (x k : string) : bool := existsb (fun i => String.eqb (str_drop i k) x) (seq 1 (String.length k)).
Lemma stems_suffix : forallb (fun x => forallb (fun k => negb (proper_suffix x k)) stems) stems = true.
Proof. reflexivity. Qed.
Lemma stem_not_suffix x k b : In x stems -> In k stems -> b <> "" -> k <> b ++ x.
Proof.
  intros X K N E. pose proof stems_suffix as S. rewrite forallb_forall in S. specialize (S x X). rewrite forallb_forall in S. specialize (S k K).
  apply Bool.negb_true_iff in S. assert (T : proper_suffix x k = true); [|congruence].
  unfold proper_suffix. apply existsb_exists. exists (String.length b). split.
  - apply in_seq. subst k. destruct b; [congruence|]. cbn [String.length].
    assert (W : String.length (b ++ x) = (String.length b + String.length x)%nat) by (clear; induction b; cbn; auto). cbn [append String.length]. lia.
  - subst k. rewrite drop_app. apply String.eqb_refl.
Qed.
Definition wf_token (t : token) : Prop := match t with Lit s => uf s = true | Word x u => In x stems /\ uf u = true end.
Lemma stem_uf x : In x stems -> uf x = true.
Proof. intros H. repeat (destruct H as [<-|H]; [reflexivity|]). destruct H. Qed.
Lemma stem_nonempty x : In x stems -> x <> "".
Proof. intros H. repeat (destruct H as [<-|H]; [discriminate|]). destruct H. Qed.
Lemma text_head : forall l, Forall wf_token l -> head_seg (text l) = None \/ exists b x, In x stems /\ head_seg (text l) = Some (b ++ x).
Proof.
  induction 1 as [|t l W _ IH]; [left; reflexivity|]. cbn [text]. destruct t as [s|x u]; cbn [wf_token tok_text] in *.
  - rewrite (head_app s _ W). destruct IH as [->|(b & x & X & ->)]; [left; reflexivity|]. right. exists (s ++ b), x. split; [exact X|]. rewrite app_assoc_s. reflexivity.
  - destruct W as [X _]. right. exists "", x. split; [exact X|]. rewrite app_assoc_s, (head_app x _ (stem_uf x X)). cbn. f_equal. clear. induction x; cbn; congruence.
Qed.
Lemma no_match_text k b l : In k stems -> Forall wf_token l -> uf b = true -> b <> "" -> String.prefix (k ++ "_unit") (b ++ text l) = false.
Proof.
  intros K W U N. destruct (String.prefix _ _) eqn:P; [exfalso|reflexivity].
  change (k ++ "_unit") with (k ++ ("_" ++ "unit")) in P. apply (prefix_head k "unit" _ (stem_uf k K)) in P. rewrite (head_app b _ U) in P.
  destruct (text_head l W) as [E|(b' & x & X & E)]; rewrite E in P; [discriminate|]. injection P as P.
  apply (stem_not_suffix x k (b ++ b') X K); [destruct b; [congruence|discriminate]|]. rewrite app_assoc_s. auto.
Qed.
Lemma no_start_lit k s l : In k stems -> Forall wf_token l -> uf s = true -> no_start (k ++ "_unit") s (text l).
Proof.
  intros K W U i L. rewrite drop_app_lt by lia. apply no_match_text; auto; [apply uf_drop, U|apply drop_nonempty, L].
Qed.
Lemma no_start_word k x u l : In k stems -> In x stems -> x <> k -> uf u = true -> Forall wf_token l -> no_start (k ++ "_unit") (x ++ "_" ++ u) (text l).
Proof.
  intros K X N U W i L.
  destruct (PeanoNat.Nat.le_gt_cases i (String.length x)) as [C|C].
  - destruct (String.prefix _ _) eqn:P; [exfalso|reflexivity].
    change (k ++ "_unit") with (k ++ ("_" ++ "unit")) in P. apply (prefix_head k "unit" _ (stem_uf k K)) in P.
    rewrite app_assoc_s, drop_app_lt in P by exact C.
    rewrite (head_app _ _ (uf_drop i x (stem_uf x X))) in P. cbn in P. injection P as P.
    assert (E : str_drop i x = k) by (rewrite <- P; clear; generalize (str_drop i x) as q; induction q; cbn; congruence).
    destruct i as [|i]; [cbn in E; contradiction|].
    assert (S : proper_suffix k x = true).
    { unfold proper_suffix. apply existsb_exists. exists (S i). split; [apply in_seq; lia|]. rewrite E. apply String.eqb_refl. }
    pose proof stems_suffix as T. rewrite forallb_forall in T. specialize (T k K). rewrite forallb_forall in T. specialize (T x X). rewrite S in T. discriminate.
  - rewrite app_assoc_s, drop_app_ge by lia. destruct (i - String.length x)%nat as [|j] eqn:J; [lia|]. cbn [append str_drop].
    assert (LU : (j < String.length u)%nat).
    { assert (String.length (x ++ String "_" u) = (String.length x + S (String.length u))%nat) as LL by (clear; induction x; cbn; auto). cbn [append] in L. rewrite LL in L. lia. }
    rewrite drop_app_lt by lia. apply no_match_text; auto; [apply uf_drop, U|apply drop_nonempty, LU].
Qed.
Definition put (k : string) (new : list token) (t : token) : list token :=
  match t with Word x u => if String.eqb x k then new else [t] | _ => [t] end.
Definition key_unit (k : string) (t : token) : Prop := match t with Word x u => x = k -> u = "unit" | _ => True end.
Lemma text_app a b : text (a ++ b)%list = text a ++ text b.
Proof. induction a as [|t a IH]; cbn; [reflexivity|]. rewrite IH, app_assoc_s. reflexivity. Qed.
Lemma replace_tokens k new l : In k stems -> Forall wf_token l -> Forall (key_unit k) l ->
  str_replace (text l) (k ++ "_unit") (text new) = text (flat_map (put k new) l).
Proof.
  intros K W KU. unfold str_replace.
  assert (NE : k ++ "_unit" <> "") by (destruct k; discriminate). apply String.eqb_neq in NE as NE'. rewrite NE'.
  induction l as [|t l IH]; [reflexivity|]. inversion W as [|? ? W1 W2]; subst. inversion KU as [|? ? U1 U2]; subst. specialize (IH W2 U2).
  cbn [flat_map text]. rewrite text_app, <- IH. destruct t as [s|x u]; cbn [tok_text wf_token put key_unit text] in *.
  - rewrite (replace_no_start _ _ _ s (no_start_lit k s l K W2 W1)). rewrite app_assoc_s. reflexivity.
  - destruct W1 as [X U]. destruct (String.eqb x k) eqn:E.
    + apply String.eqb_eq in E. subst x. rewrite (U1 eq_refl). cbn [text tok_text]. change ("_" ++ "unit") with "_unit". apply replace_match, NE.
    + apply String.eqb_neq in E. rewrite (replace_no_start _ _ _ _ (no_start_word k x u l K X E U W2)). cbn [text tok_text]. rewrite !app_assoc_s. reflexivity.
Qed.
Definition stem (u : default_unit) : string :=
  match u with Currency => "currency" | Emissionsrate => "emissionsrate" | Emissions => "emissions" | Temperature => "temperature" | Population => "population" end.
Definition tok (q : piece) : token := match q with Plain s => Lit s | Default u => Word (stem u) "unit" end.
Lemma written_text l : written l = text (map tok l).
Proof. induction l as [|[s|u] l IH]; cbn [written text map tok tok_text]; [reflexivity|rewrite IH; reflexivity|]. rewrite IH. destruct u; reflexivity. Qed.

(** Default units in a unit text stand for what default_units.yaml says, in brackets; everything else stays
    (except "year", which becomes "yr"). *)
Lemma C09_units_expanded_pf : forall l, (forall s, In (Plain s) l -> no_underscore s) ->
  parse_default_units (written l) = str_replace (meant l) "year" "yr".
Proof.
  intros l H. unfold parse_default_units. f_equal. cbn [fold_left default_units fst snd].
  rewrite written_text.
  set (n1 := [Lit "(trillion USD2005/yr)"]). set (n2 := [Lit "("; Word "emissions" "unit"; Lit "/yr)"]). set (n3 := [Lit "(GtCO2)"]).
  set (n4 := [Lit "("; Word "delta" "degC"; Lit ")"]). set (n5 := [Lit "(billion)"]).
  assert (W : forall k new m, Forall wf_token m -> Forall wf_token new -> Forall wf_token (flat_map (put k new) m)).
  { intros k new m M N. induction M as [|t m T _ IH]; [constructor|]. cbn [flat_map]. apply Forall_app. split; [|exact IH].
    unfold put. destruct t as [s|x u]; [auto|]. destruct (String.eqb x k); auto. }
  set (ok := fun t => match t with Word x u => (x = "delta" /\ u = "degC") \/ u = "unit" | _ => True end).
  assert (V : forall k new m, Forall ok m -> Forall ok new -> Forall ok (flat_map (put k new) m)).
  { intros k new m M N. induction M as [|t m T _ IH]; [constructor|]. cbn [flat_map]. apply Forall_app. split; [|exact IH].
    unfold put. destruct t as [s|x u]; [auto|]. destruct (String.eqb x k); auto. }
  assert (KU : forall k m, k <> "delta" -> Forall ok m -> Forall (key_unit k) m).
  { intros k m N M. eapply Forall_impl; [|exact M]. intros [s|x u]; cbn; [auto|]. intros [[-> _]|E] F; [congruence|exact E]. }
  assert (W0 : Forall wf_token (map tok l)).
  { apply Forall_forall. intros t T. apply in_map_iff in T as ([s|u] & <- & I); cbn; [apply uf_spec, H, I|]. split; [|reflexivity].
    destruct u; cbn; auto 10. }
  assert (V0 : Forall ok (map tok l)).
  { apply Forall_forall. intros t T. apply in_map_iff in T as ([s|u] & <- & I); cbn; auto. }
  assert (N1 : Forall wf_token n1) by (repeat constructor). assert (N2 : Forall wf_token n2) by (repeat constructor).
  assert (N3 : Forall wf_token n3) by (repeat constructor). assert (N4 : Forall wf_token n4) by (repeat constructor).
  assert (O1 : Forall ok n1) by (repeat constructor). assert (O2 : Forall ok n2) by (repeat constructor).
  assert (O3 : Forall ok n3) by (repeat constructor). assert (O4 : Forall ok n4) by (repeat constructor).
  change ("(" ++ "trillion USD2005/yr" ++ ")") with (text n1). change "currency_unit" with ("currency" ++ "_unit").
  rewrite replace_tokens; [|cbn; auto 10|assumption|apply KU; [discriminate|assumption]].
  change ("(" ++ "emissions_unit/yr" ++ ")") with (text n2). change "emissionsrate_unit" with ("emissionsrate" ++ "_unit").
  rewrite replace_tokens; [|cbn; auto 10|auto|apply KU; [discriminate|auto]].
  change ("(" ++ "GtCO2" ++ ")") with (text n3). change "emissions_unit" with ("emissions" ++ "_unit").
  rewrite replace_tokens; [|cbn; auto 10|auto|apply KU; [discriminate|auto]].
  change ("(" ++ "delta_degC" ++ ")") with (text n4). change "temperature_unit" with ("temperature" ++ "_unit").
  rewrite replace_tokens; [|cbn; auto 10|auto 10|apply KU; [discriminate|auto 10]].
  change ("(" ++ "billion" ++ ")") with (text n5). change "population_unit" with ("population" ++ "_unit").
  rewrite replace_tokens; [|cbn; auto 10|auto 10|apply KU; [discriminate|auto 10]].
  clear. induction l as [|[s|u] l IH]; [reflexivity| |].
  - cbn [map tok meant flat_map put app]. cbn [text tok_text]. f_equal. exact IH.
  - cbn [map tok meant flat_map]. rewrite !flat_map_app, text_app, IH. f_equal. destruct u; reflexivity.
Qed.

(** *** Spellings *)
Lemma replace_boundary old new b : forall a n, (n <= String.length a)%nat ->
  (forall i, (i < String.length a)%nat -> String.prefix old (str_drop i a ++ b) = String.prefix old (str_drop i a)) ->
  replace_aux old new n (a ++ b) = replace_aux old new n a ++ replace_aux old new 0 b.
Proof.
  induction a as [|c a IH]; intros n L H.
  - cbn in L. destruct n; [|lia]. reflexivity.
  - assert (H' : forall i, (i < String.length a)%nat -> String.prefix old (str_drop i a ++ b) = String.prefix old (str_drop i a)).
    { intros i I. exact (H (S i) ltac:(cbn; lia)). }
    destruct n as [|n]; cbn [append replace_aux].
    + pose proof (H 0%nat ltac:(cbn; lia)) as H0. cbn [str_drop append] in H0. rewrite H0. destruct (String.prefix old (String c a)) eqn:P.
      * rewrite app_assoc_s. f_equal. apply IH; [|exact H']. apply prefix_split in P as [r P]. cbn in L.
        assert (Q : String.length (String c a) = String.length (old ++ r)) by (rewrite P; reflexivity).
        assert (forall x y, String.length (x ++ y) = (String.length x + String.length y)%nat) as LA by (clear; induction x; cbn; intros; auto).
        rewrite LA in Q. cbn in Q. lia.
      * cbn [append]. f_equal. apply IH; [lia|exact H'].
    + cbn in L. apply IH; [lia|exact H'].
Qed.
Ltac few_chars :=
  intros; match goal with |- context [String.prefix _ (?a ++ _)] => generalize a end;
  intros a'; destruct a' as [|? [|? [|? [|? [|? ?]]]]].
Lemma prefix_cons_eq a p b s : String.prefix (String a p) (String b s) = if ascii_dec a b then String.prefix p s else false.
Proof. reflexivity. Qed.
Lemma us_boundary x b : (exists m, x = String "U" m \/ x = String "t" m) -> forall a, a <> "" -> String.prefix "US$" (a ++ (x ++ b)) = String.prefix "US$" a.
Proof.
  intros [m [-> | ->]] [|c1 [|c2 [|c3 a]]] N; [congruence| | | |congruence| | |]; cbn [append]; rewrite ?prefix_cons_eq, ?prefix_empty;
    repeat match goal with |- context [ascii_dec ?u ?v] => destruct (ascii_dec u v); try congruence; try discriminate; try reflexivity end.
  all: try reflexivity.
Qed.
Lemma co_boundary x b : (exists m, x = String "t" m) -> forall a, a <> "" -> String.prefix "t CO2" (a ++ (x ++ b)) = String.prefix "t CO2" a.
Proof.
  intros [m ->] [|c1 [|c2 [|c3 [|c4 [|c5 a]]]]] N; [congruence| | | | |]; cbn [append]; rewrite ?prefix_cons_eq, ?prefix_empty;
    repeat match goal with |- context [ascii_dec ?u ?v] => destruct (ascii_dec u v); try congruence; try discriminate; try reflexivity end.
  all: try reflexivity.
Qed.
Lemma us_middle a x b : (exists m, x = String "U" m \/ x = String "t" m) ->
  str_replace (a ++ (x ++ b)) "US$" "USD" = str_replace a "US$" "USD" ++ replace_aux "US$" "USD" 0 (x ++ b).
Proof.
  intros X. unfold str_replace. cbn [String.eqb Ascii.eqb]. apply (replace_boundary "US$" "USD" (x ++ b) a 0); [lia|].
  intros i L. apply us_boundary; [exact X|]. apply drop_nonempty, L.
Qed.
Lemma co_middle a x b : (exists m, x = String "t" m) ->
  str_replace (a ++ (x ++ b)) "t CO2" "tCO2" = str_replace a "t CO2" "tCO2" ++ replace_aux "t CO2" "tCO2" 0 (x ++ b).
Proof.
  intros X. unfold str_replace. cbn [String.eqb Ascii.eqb]. apply (replace_boundary "t CO2" "tCO2" (x ++ b) a 0); [lia|].
  intros i L. apply co_boundary; [exact X|]. apply drop_nonempty, L.
Qed.
Lemma dollar_spelling a b : custom_replace (a ++ ("US$" ++ b)) = custom_replace (a ++ ("USD" ++ b)).
Proof.
  unfold custom_replace. f_equal. rewrite !us_middle by (eexists; left; reflexivity).
  rewrite (replace_match "US$" "USD" b) by discriminate. reflexivity.
Qed.
Lemma co2_spelling a b : custom_replace (a ++ ("t CO2" ++ b)) = custom_replace (a ++ ("tCO2" ++ b)).
Proof.
  unfold custom_replace. rewrite !us_middle by (eexists; right; reflexivity).
  change (replace_aux "US$" "USD" 0 ("t CO2" ++ b)) with ("t CO2" ++ replace_aux "US$" "USD" 0 b).
  change (replace_aux "US$" "USD" 0 ("tCO2" ++ b)) with ("tCO2" ++ replace_aux "US$" "USD" 0 b).
  rewrite !co_middle by (eexists; reflexivity).
  rewrite (replace_match "t CO2" "tCO2") by discriminate. reflexivity.
Qed.
(** "US$" may be written for "USD" and "t CO2" for "tCO2", anywhere in a quantity and in its target unit. *)
Lemma C09_spellings_pf : forall o a b unit can_be_false v,
  quant o (VStr (a ++ "US$" ++ b)) unit can_be_false = quant o (VStr (a ++ "USD" ++ b)) unit can_be_false /\
  quant o (VStr (a ++ "t CO2" ++ b)) unit can_be_false = quant o (VStr (a ++ "tCO2" ++ b)) unit can_be_false /\
  quant o v (VStr (a ++ "US$" ++ b)) can_be_false = quant o v (VStr (a ++ "USD" ++ b)) can_be_false /\
  quant o v (VStr (a ++ "t CO2" ++ b)) can_be_false = quant o v (VStr (a ++ "tCO2" ++ b)) can_be_false.
Proof.
  intros o a b unit cbf v. unfold quant. rewrite (dollar_spelling a b), (co2_spelling a b).
  cbn [py_str]. rewrite (dollar_spelling a b), (co2_spelling a b). rewrite !Bool.andb_false_r. auto.
Qed.
(** A quantity is converted by pint to the expanded unit; other spellings aside, its text reaches pint unchanged. *)
Lemma C09_quantity_converted_pf : forall o text l,
  (forall s, In (Plain s) l -> no_underscore s) -> str_contains "US$" text = false -> str_contains "t CO2" text = false ->
  str_contains "US$" (written l) = false -> str_contains "t CO2" (written l) = false -> str_contains "year" (meant l) = false ->
  quant o (VStr text) (VStr (written l)) true = (do q <- o_pint o text (meant l); Ok (Some q)).
Proof.
  assert (I : forall old new s, str_contains old s = false -> str_replace s old new = s).
  { intros old new s H. unfold str_replace. destruct (String.eqb old "") eqn:E; [reflexivity|]. clear E. induction s as [|c s IH]; [reflexivity|].
    cbn [replace_aux]. cbn [str_contains] in H. apply Bool.orb_false_elim in H as [H1 H2]. rewrite H1. f_equal. apply IH, H2. }
  intros o txt l H A1 A2 B1 B2 Y. unfold quant, custom_replace. cbn [andb py_str]. rewrite (I _ _ _ A1), (I _ _ _ A2), (I _ _ _ B1), (I _ _ _ B2).
  rewrite (C09_units_expanded_pf l H), (I _ _ _ Y). reflexivity.
Qed.
Example C09_ex : parse_default_units (written [Plain "5 "; Default Emissionsrate; Plain "/"; Default Currency; Plain "/year"])
  = "5 ((GtCO2)/yr)/(trillion USD2005/yr)/yr".
Proof. reflexivity. Qed.
