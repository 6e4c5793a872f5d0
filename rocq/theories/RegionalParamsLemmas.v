(** C15 (overrides) and C16 (region mapping). *)
From Verif Require Import PyBase NestedDict NestedDictFacts Config ConfigSpec ConfigBridge ConfigLemmas DataStore DataStoreLemmas RegionalParams.
From Coq Require Import Permutation Lia.
Import ListNotations.
Open Scope string_scope.
Open Scope list_scope.

(** *** Specification *)
(** The value a user wrote in the "regions" section for one region and parameter. *)
Definition override (params : pyval) (region category paramname : string) : option pyval :=
  lookup params ["regions"; region; category; paramname].
(** The numbers of a parameter file for one of its own regions. *)
Definition entries (data : table) (file_region : pyval) (paramname : string) : list pyval :=
  flat_map (fun row => match cell data row "region", cell data row paramname with
                       | Ok r, Ok v => if py_eqb r file_region then [v] else []
                       | _, _ => [] end) (t_rows data).
(** The file regions that make up a model region (with multiplicity, as the mapping lists them). *)
Definition sources (pairs : list (pyval * pyval)) (region : string) : list pyval :=
  map fst (filter (fun ab => py_eqb (snd ab) (VStr region)) pairs).
Definition contributions (data : table) (pairs : list (pyval * pyval)) (region paramname : string) : list pyval :=
  flat_map (fun a => entries data a paramname) (sources pairs region).
Definition average (l : list Q) : Q := (fold_right Qplus 0 l / inject_Z (Z.of_nat (List.length l)))%Q.
Definition rectangular (t : table) : Prop := forall row, In row (t_rows t) -> List.length row = List.length (t_columns t).

(** *** C15 *)
Lemma get_nested_errors v ks : Forall (fun k => exists s, k = KStr s) ks ->
  match get_nested v ks with Ok _ => True | Err e => e = KeyError \/ e = TypeError end.
Proof.
  intros F. revert v. induction F as [|k ks [s ->] _ IH]; intros v; [exact I|]. cbn [get_nested].
  destruct v as [| | | | | |d]; cbn; auto. destruct (dget d (KStr s)); cbn; auto. apply IH.
Qed.
Lemma getregional_spec st category paramname region :
  forall mo, getregional mo st category paramname region =
  match override (st_params st) region category paramname with
  | Some v => Ok v
  | None => file_value mo (st_categories st) category paramname region
  end.
Proof.
  intros mo. unfold getregional, override.
  pose proof (get_nested_errors (st_params st) [KStr "regions"; KStr region; KStr category; KStr paramname] ltac:(repeat constructor; eauto)) as H.
  destruct (get_nested (st_params st) _) as [v|e] eqn:G.
  - assert (L : lookup (st_params st) ["regions"; region; category; paramname] = Some v) by (apply lookup_get; exact G). rewrite L. reflexivity.
  - destruct (lookup (st_params st) _) as [v|] eqn:L.
    + apply lookup_get in L. change (keys_of ["regions"; region; category; paramname]) with [KStr "regions"; KStr region; KStr category; KStr paramname] in L. rewrite L in G. discriminate G.
    + destruct H as [-> | ->]; reflexivity.
Qed.
(** A value in the regions section is used as it is; without one, the file's value (or error) is used,
    whatever else the configuration says. *)
Lemma C15_override_wins_pf : forall mo st category paramname region v,
  override (st_params st) region category paramname = Some v ->
  getregional mo st category paramname region = Ok v.
Proof. intros mo st c q r v H. rewrite getregional_spec, H. reflexivity. Qed.
Lemma C15_otherwise_file_value_pf : forall mo st category paramname region,
  override (st_params st) region category paramname = None ->
  getregional mo st category paramname region = file_value mo (st_categories st) category paramname region.
Proof. intros mo st c q r H. rewrite getregional_spec, H. reflexivity. Qed.
(** Adding an override for one region and parameter changes nothing for any other. *)
Lemma C15_override_is_local_pf : forall mo params params' cs region category paramname x,
  set_nested params (map KStr ["regions"; region; category; paramname]) x = Ok params' ->
  let st := {| st_params := params; st_categories := cs |} in
  let st' := {| st_params := params'; st_categories := cs |} in
  getregional mo st' category paramname region = Ok x /\
  forall region' category' paramname', (region', category', paramname') <> (region, category, paramname) ->
    getregional mo st' category' paramname' region' = getregional mo st category' paramname' region'.
Proof.
  intros mo params params' cs region category paramname x H st st'. apply C08_set_then_get_pf in H as (H1 & H2 & _).
  split; [apply C15_override_wins_pf; exact H1|]. intros r c q N. rewrite !getregional_spec. unfold override. cbn [st_params st st'].
  rewrite H2; [reflexivity| |].
  - cbn. intros (_ & E1 & E2 & E3 & _). apply N. congruence.
  - cbn. intros (_ & E1 & E2 & E3 & _). apply N. congruence.
Qed.
(** The store gives every region of the model its value. *)
Lemma C15_every_region_pf : forall mo st category paramname regions l, get mo st category paramname regions = Ok l ->
  map fst l = regions /\ forall r v, In (r, v) l -> getregional mo st category paramname r = Ok v.
Proof.
  intros mo st c q rs. induction rs as [|r rs IH]; intros l H; cbn in H; [injection H as <-; split; [reflexivity|intros ? ? []]|].
  apply bind_ok in H as (v & H1 & H). apply bind_ok in H as (l' & H2 & H). injection H as <-. destruct (IH _ H2) as [E K].
  split; [cbn; f_equal; exact E|]. intros r' v' [X|X]; [injection X as <- <-; exact H1|auto].
Qed.

(** A file value is a number, or a text that does not read as one. *)
Lemma C15_file_values_are_numbers_pf : forall mo cs category paramname region x, file_value mo cs category paramname region = Ok x ->
  (exists f, x = VFloat f) \/ (exists s, x = VStr s /\ py_float x = Err ValueError).
Proof.
  intros mo cs c q r x H. unfold file_value in H. apply bind_ok in H as (k & _ & H). unfold container_get in H. apply bind_ok in H as (v & _ & H).
  assert (T : py_float v = Err ValueError -> exists s, v = VStr s).
  { clear H. destruct v as [|b|z|f|s|l|d]; cbn [py_float]; intros E; try discriminate E; [|eauto]. destruct (mk_float (inject_Z z)); discriminate E. }
  destruct (py_float v) as [f|e] eqn:E; [injection H as <-; left; eauto|]. destruct e; try discriminate H. injection H as <-. right.
  destruct (T eq_refl) as [s ->]. exists s. auto.
Qed.

(** *** C16 *)
Lemma filter_perm {A} (f : A -> bool) l l' : Permutation l l' -> Permutation (filter f l) (filter f l').
Proof.
  induction 1; cbn; [constructor|destruct (f x); auto|destruct (f x), (f y); try constructor; apply Permutation_refl|etransitivity; eauto].
Qed.
Lemma q_sum_perm l l' : Permutation l l' -> (q_sum l == q_sum l')%Q.
Proof. unfold q_sum. induction 1; cbn; [reflexivity|rewrite IHPermutation; reflexivity|ring|etransitivity; eauto]. Qed.
Lemma index_nth c l n : index_of c l = Ok n -> (n < List.length l)%nat.
Proof.
  revert n. induction l as [|x l IH]; intros n H; cbn in H; [discriminate|]. destruct (String.eqb x c); [injection H as <-; cbn; lia|].
  apply bind_ok in H as (m & H1 & H). injection H as <-. cbn. apply IH in H1. lia.
Qed.
Lemma nth_blank {A} (l : list A) n : nth n (map (fun _ => nan) l) nan = nan.
Proof. revert n. induction l; intros [|n]; cbn; auto. Qed.
Lemma py_eqb_nan_str s : py_eqb nan (VStr s) = false.
Proof. reflexivity. Qed.

Section Mapping.
  Variables (mo : list (pyval * list pyval) -> list (pyval * list pyval)) (data : table) (pairs : list (pyval * pyval)).
  Hypothesis MO : forall l, Permutation l (mo l).
  Hypothesis RC : rectangular data.
  Hypothesis HR : has_column data "region" = true.
  Variables (paramname region : string) (n : nat).
  Hypothesis PN : index_of paramname (t_columns data) = Ok n.
  Hypothesis PR : String.eqb paramname "region" = false.

  Let unsorted : list (pyval * list pyval) :=
    flat_map (fun ab => match filter (matches data (fst ab)) (t_rows data) with
                        | [] => [(snd ab, map (fun _ => nan) (t_columns data))]
                        | rows => map (fun row => (snd ab, row)) rows
                        end) pairs
    ++ map (fun row => (nan, row)) (filter (fun row => negb (existsb (fun ab => matches data (fst ab) row) pairs)) (t_rows data)).
  Let target (r : pyval * list pyval) : bool := py_eqb (fst r) (VStr region).
  Let value (r : pyval * list pyval) : pyval := nth n (snd r) nan.

  Lemma merge_perm : Permutation unsorted (outer_merge mo data pairs).
  Proof. unfold outer_merge, unsorted. apply MO. Qed.
  Lemma cell_nth row : In row (t_rows data) -> cell data row paramname = Ok (nth n row nan).
  Proof.
    intros H. unfold cell. rewrite PN. cbn [bind]. pose proof (index_nth _ _ _ PN) as L. rewrite <- (RC row H) in L.
    rewrite (nth_error_nth' row nan L). reflexivity.
  Qed.
  Lemma entries_eq a : entries data a paramname = map (fun row => nth n row nan) (filter (matches data a) (t_rows data)).
  Proof.
    unfold entries.
    assert (G : forall rows, (forall row, In row rows -> In row (t_rows data)) ->
      flat_map (fun row => match cell data row "region", cell data row paramname with
                       | Ok r, Ok v => if py_eqb r a then [v] else []
                       | _, _ => [] end) rows = map (fun row => nth n row nan) (filter (matches data a) rows)).
    { induction rows as [|row rows IH]; intros S; [reflexivity|]. cbn [flat_map filter]. rewrite IH by (intros; apply S; right; auto).
      rewrite (cell_nth row) by (apply S; left; reflexivity). unfold matches at 2. destruct (cell data row "region") as [r|]; [|reflexivity].
      destruct (py_eqb r a); reflexivity. }
    apply G. auto.
  Qed.
  Lemma filter_app' {A} (f : A -> bool) l l' : filter f (l ++ l') = filter f l ++ filter f l'.
  Proof. induction l; cbn; [reflexivity|]. destruct (f a); cbn; congruence. Qed.
  Lemma filter_pair b (rows : list (list pyval)) :
    filter target (map (fun row => (b, row)) rows) = if py_eqb b (VStr region) then map (fun row => (b, row)) rows else [].
  Proof.
    unfold target. induction rows as [|row rows IH]; cbn; [destruct (py_eqb b (VStr region)); reflexivity|]. rewrite IH.
    destruct (py_eqb b (VStr region)); reflexivity.
  Qed.
  (** the cells of the group, blanks aside *)
  Lemma group_cells : flat_map (fun v => if is_nan v then [] else [v]) (map value (filter target unsorted))
    = flat_map (fun v => if is_nan v then [] else [v]) (contributions data pairs region paramname).
  Proof.
    unfold unsorted. rewrite filter_app', map_app, flat_map_app.
    assert (Z : filter target (map (fun row => (nan, row)) (filter (fun row => negb (existsb (fun ab => matches data (fst ab) row) pairs)) (t_rows data))) = [])
      by (rewrite filter_pair; reflexivity).
    rewrite Z. cbn [map flat_map]. rewrite app_nil_r. clear Z. unfold contributions, sources.
    induction pairs as [|[a b] l IH]; [reflexivity|]. cbn [flat_map filter fst snd]. rewrite filter_app', map_app, flat_map_app, IH. clear IH.
    destruct (filter (matches data a) (t_rows data)) as [|row rows] eqn:F.
    - cbn [filter]. unfold target at 1. cbn [fst]. destruct (py_eqb b (VStr region)) eqn:B.
      + cbn [map fst flat_map]. unfold value. cbn [snd]. rewrite nth_blank. cbn. rewrite entries_eq, F. reflexivity.
      + reflexivity.
    - change ((b, row) :: map (fun row0 : list pyval => (b, row0)) rows) with (map (fun row0 : list pyval => (b, row0)) (row :: rows)).
      rewrite filter_pair. destruct (py_eqb b (VStr region)) eqn:B; [|reflexivity].
      cbn [map fst]. cbn [flat_map]. rewrite flat_map_app. f_equal. rewrite entries_eq, F. cbn [map]. unfold value at 1. cbn [snd flat_map]. f_equal.
      rewrite map_map. reflexivity.
  Qed.
  Lemma group_numbers : flat_map q_of (map value (filter target unsorted)) = flat_map q_of (contributions data pairs region paramname).
  Proof.
    assert (G : forall l, flat_map q_of l = flat_map q_of (flat_map (fun v => if is_nan v then [] else [v]) l)).
    { induction l as [|v l IH]; [reflexivity|]. cbn [flat_map]. rewrite flat_map_app, IH. f_equal. destruct v as [| | |[| | |]| | |]; reflexivity. }
    rewrite G, group_cells, <- G. reflexivity.
  Qed.
  Lemma filter_flat_map_nonempty {A B} (f : B -> bool) (F : A -> list B) (g : A -> bool) l :
    (forall x, filter f (F x) <> [] <-> g x = true) -> filter f (flat_map F l) <> [] <-> exists x, In x l /\ g x = true.
  Proof.
    intros H. induction l as [|x l IH]; [split; [intros N; destruct (N eq_refl)|intros (y & [] & _)]|]. cbn [flat_map]. rewrite filter_app'. split.
    - intros N. destruct (g x) eqn:G; [exists x; split; [left; reflexivity|exact G]|].
      destruct (filter f (F x)) as [|y ys] eqn:Q.
      + apply IH in N as (z & N1 & N2). exists z. split; [right; exact N1|exact N2].
      + assert (g x = true) by (apply H; rewrite Q; discriminate). congruence.
    - intros (y & [<-|Y] & G) E; apply app_eq_nil in E as [E1 E2].
      + apply H in G. contradiction.
      + assert (K : filter f (flat_map F l) <> []) by (apply IH; eauto). contradiction.
  Qed.
  Lemma group_nonempty : filter target unsorted <> [] <-> exists ab, In ab pairs /\ py_eqb (snd ab) (VStr region) = true.
  Proof.
    unfold unsorted. rewrite filter_app', filter_pair. cbn [py_eqb nan]. rewrite app_nil_r.
    apply (filter_flat_map_nonempty target _ (fun ab => py_eqb (snd ab) (VStr region))). intros [a b]. cbn [fst snd].
    destruct (filter (matches data a) (t_rows data)) as [|row rows].
    - cbn [filter]. unfold target. cbn [fst]. destruct (py_eqb b (VStr region)); split; intros H; try discriminate; try reflexivity. destruct (H eq_refl).
    - rewrite filter_pair. destruct (py_eqb b (VStr region)); split; intros H; try discriminate; try reflexivity. destruct (H eq_refl).
  Qed.

  Lemma locate_group : forall v, locate mo (Mapped data pairs) paramname region = Ok v ->
    exists group, Permutation (filter target unsorted) group /\ group <> [] /\
      v = if forallb is_number (map value (outer_merge mo data pairs)) then mean (map value group) else first (map value group).
  Proof.
    intros v H. unfold locate in H. rewrite PR, PN in H. cbn [bind] in H.
    destruct (filter _ (outer_merge mo data pairs)) as [|g gs] eqn:F; [discriminate|]. injection H as <-.
    exists (g :: gs). split; [|split; [discriminate|reflexivity]]. rewrite <- F. apply filter_perm, merge_perm.
  Qed.
  Lemma locate_target : (exists ab, In ab pairs /\ py_eqb (snd ab) (VStr region) = true) ->
    exists v, locate mo (Mapped data pairs) paramname region = Ok v.
  Proof.
    intros H. apply group_nonempty in H. unfold locate. rewrite PR, PN. cbn [bind].
    destruct (filter _ (outer_merge mo data pairs)) as [|g gs] eqn:F; [|eauto]. exfalso. apply H.
    pose proof (filter_perm target _ _ merge_perm) as P. unfold target in P at 2. rewrite F in P. apply Permutation_sym, Permutation_nil in P. exact P.
  Qed.
  Lemma numeric_column : (forall row, In row (t_rows data) -> is_number (nth n row nan) = true) ->
    forallb is_number (map value (outer_merge mo data pairs)) = true.
  Proof.
    intros H. apply forallb_forall. intros v Hv. apply in_map_iff in Hv as (r & <- & Hr).
    apply (Permutation_in _ (Permutation_sym merge_perm)) in Hr. unfold unsorted in Hr. apply in_app_iff in Hr as [Hr|Hr].
    - apply in_flat_map in Hr as ([a b] & _ & Hr). cbn [fst snd] in Hr. destruct (filter (matches data a) (t_rows data)) as [|row rows] eqn:F.
      + destruct Hr as [<-|[]]. unfold value. cbn [snd]. rewrite nth_blank. reflexivity.
      + assert (K : In (snd r) (row :: rows)) by (apply in_map_iff in Hr as (x & <- & Hx); exact Hx).
        rewrite <- F in K. apply filter_In in K as [K _]. apply H, K.
    - apply in_map_iff in Hr as (row & <- & Hr). apply filter_In in Hr as [Hr _]. apply H, Hr.
  Qed.
End Mapping.

(** A numeric parameter: a model region gets the mean of the file's values over the file regions it is mapped to. *)
Lemma C16_mean_of_sources_pf : forall mo data pairs paramname region,
  (forall l, Permutation l (mo l)) -> rectangular data -> has_column data "region" = true ->
  has_column data paramname = true -> paramname <> "region" ->
  (forall row v, In row (t_rows data) -> cell data row paramname = Ok v -> is_number v = true) ->
  flat_map q_of (contributions data pairs region paramname) <> [] ->
  exists q, container_get mo (Mapped data pairs) paramname region = Ok (VFloat (FFin q)) /\
    (q == average (flat_map q_of (contributions data pairs region paramname)))%Q.
Proof.
  intros mo data pairs paramname region MO RC HR HP PR NUM NE.
  assert (PN : exists n, index_of paramname (t_columns data) = Ok n).
  { unfold has_column in HP. clear - HP. induction (t_columns data) as [|c l IH]; [discriminate|]. cbn in HP |- *.
    destruct (String.eqb c paramname) eqn:E; [eauto|]. rewrite String.eqb_sym, E in HP. cbn in HP. destruct (IH HP) as [m ->]. cbn. eauto. }
  destruct PN as [n PN]. apply String.eqb_neq in PR.
  assert (T : exists ab, In ab pairs /\ py_eqb (snd ab) (VStr region) = true).
  { unfold contributions, sources in NE. destruct (filter (fun ab => py_eqb (snd ab) (VStr region)) pairs) as [|ab l] eqn:F; [destruct (NE eq_refl)|].
    exists ab. apply (proj1 (filter_In (fun ab => py_eqb (snd ab) (VStr region)) ab pairs)). rewrite F. left. reflexivity. }
  destruct (locate_target mo data pairs MO paramname region n PN PR T) as [v L].
  destruct (locate_group mo data pairs MO paramname region n PN PR v L) as (g & P & _ & V).
  assert (NC : forall row, In row (t_rows data) -> is_number (nth n row nan) = true).
  { intros row H. apply (NUM row); [exact H|]. apply (cell_nth data RC paramname n PN row H). }
  rewrite (numeric_column mo data pairs MO n NC) in V.
  assert (P2 : Permutation (flat_map q_of (contributions data pairs region paramname)) (flat_map q_of (map (fun r => nth n (snd r) nan) g))).
  { rewrite <- (group_numbers data pairs RC paramname region n PN). apply Permutation_flat_map, Permutation_map, P. }
  unfold container_get. rewrite L. cbn [bind]. subst v. unfold mean.
  destruct (flat_map q_of (map _ g)) as [|q0 l0] eqn:G.
  - apply Permutation_sym, Permutation_nil in P2. contradiction.
  - eexists. split; [reflexivity|]. unfold average. rewrite (Permutation_length P2). fold (q_sum (flat_map q_of (contributions data pairs region paramname))). rewrite (q_sum_perm _ _ P2). reflexivity.
Qed.
(** In particular a region mapped to one file region gets that region's number. *)
Lemma C16_single_source_pf : forall mo data pairs paramname region a x,
  (forall l, Permutation l (mo l)) -> rectangular data -> has_column data "region" = true ->
  has_column data paramname = true -> paramname <> "region" ->
  (forall row v, In row (t_rows data) -> cell data row paramname = Ok v -> is_number v = true) ->
  sources pairs region = [a] -> entries data a paramname = [VFloat (FFin x)] ->
  exists q, container_get mo (Mapped data pairs) paramname region = Ok (VFloat (FFin q)) /\ (q == x)%Q.
Proof.
  intros mo data pairs paramname region a x MO RC HR HP PR NUM S E.
  assert (C : flat_map q_of (contributions data pairs region paramname) = [x]) by (unfold contributions; rewrite S; cbn; rewrite E; reflexivity).
  destruct (C16_mean_of_sources_pf mo data pairs paramname region MO RC HR HP PR NUM) as (q & G & Q); [rewrite C; discriminate|].
  exists q. split; [exact G|]. rewrite Q, C. unfold average. cbn. field.
Qed.
(** A mapped region without any number in the file silently gets nan. *)
Lemma C16_no_data_is_nan_pf : forall mo data pairs paramname region,
  (forall l, Permutation l (mo l)) -> rectangular data -> has_column data "region" = true ->
  has_column data paramname = true -> paramname <> "region" ->
  (forall row v, In row (t_rows data) -> cell data row paramname = Ok v -> is_number v = true) ->
  sources pairs region <> [] -> flat_map q_of (contributions data pairs region paramname) = [] ->
  container_get mo (Mapped data pairs) paramname region = Ok (VFloat FNaN).
Proof.
  intros mo data pairs paramname region MO RC HR HP PR NUM S E.
  assert (PN : exists n, index_of paramname (t_columns data) = Ok n).
  { unfold has_column in HP. clear - HP. induction (t_columns data) as [|c l IH]; [discriminate|]. cbn in HP |- *.
    destruct (String.eqb c paramname) eqn:E; [eauto|]. rewrite String.eqb_sym, E in HP. cbn in HP. destruct (IH HP) as [m ->]. cbn. eauto. }
  destruct PN as [n PN]. apply String.eqb_neq in PR.
  assert (T : exists ab, In ab pairs /\ py_eqb (snd ab) (VStr region) = true).
  { unfold sources in S. destruct (filter (fun ab => py_eqb (snd ab) (VStr region)) pairs) as [|ab l] eqn:F; [destruct (S eq_refl)|].
    exists ab. apply (proj1 (filter_In (fun ab => py_eqb (snd ab) (VStr region)) ab pairs)). rewrite F. left. reflexivity. }
  destruct (locate_target mo data pairs MO paramname region n PN PR T) as [v L].
  destruct (locate_group mo data pairs MO paramname region n PN PR v L) as (g & P & _ & V).
  assert (NC : forall row, In row (t_rows data) -> is_number (nth n row nan) = true).
  { intros row H. apply (NUM row); [exact H|]. apply (cell_nth data RC paramname n PN row H). }
  rewrite (numeric_column mo data pairs MO n NC) in V.
  assert (P2 : Permutation (flat_map q_of (contributions data pairs region paramname)) (flat_map q_of (map (fun r => nth n (snd r) nan) g))).
  { rewrite <- (group_numbers data pairs RC paramname region n PN). apply Permutation_flat_map, Permutation_map, P. }
  rewrite E in P2. apply Permutation_nil in P2. unfold container_get. rewrite L. cbn [bind]. subst v. unfold mean. rewrite P2. reflexivity.
Qed.
(** A region the mapping does not mention is a KeyError. *)
Lemma C16_unmapped_region_pf : forall mo data pairs paramname region, (forall l, Permutation l (mo l)) ->
  sources pairs region = [] -> container_get mo (Mapped data pairs) paramname region = Err KeyError.
Proof.
  intros mo data pairs paramname region MO S. unfold container_get, locate. destruct (String.eqb paramname "region"); [reflexivity|].
  destruct (index_of paramname (t_columns data)) as [n|e] eqn:E.
  - cbn [bind]. destruct (filter _ (outer_merge mo data pairs)) as [|g gs] eqn:F; [reflexivity|]. exfalso.
    assert (H : In g (filter (fun r => py_eqb (fst r) (VStr region)) (outer_merge mo data pairs))) by (rewrite F; left; reflexivity).
    apply filter_In in H as [H1 H2]. unfold outer_merge in H1. apply (Permutation_in _ (Permutation_sym (MO _))) in H1.
    apply in_app_iff in H1 as [H1|H1].
    + apply in_flat_map in H1 as ([a b] & H3 & H4). cbn [fst snd] in H4.
      assert (B : fst g = b) by (destruct (filter _ (t_rows data)); [destruct H4 as [<-|[]]; reflexivity|apply in_map_iff in H4 as (x & <- & _); reflexivity]).
      rewrite B in H2. unfold sources in S. apply map_eq_nil in S. assert (K : In (a, b) []) by (rewrite <- S; apply filter_In; auto). destruct K.
    + apply in_map_iff in H1 as (row & <- & _). discriminate H2.
  - clear - E. cbn [bind]. assert (e = KeyError); [|subst; reflexivity]. revert e E. induction (t_columns data) as [|c l IH]; intros e E; cbn in E; [congruence|].
    destruct (String.eqb c paramname); [discriminate|]. destruct (index_of paramname l); [discriminate|]. cbn in E. injection E as <-. apply IH. reflexivity.
Qed.
(** A text parameter gets the text of one of its file regions (a non-empty one, if there is any). *)
Lemma C16_text_from_a_source_pf : forall mo data pairs paramname region v,
  (forall l, Permutation l (mo l)) -> rectangular data -> has_column data "region" = true ->
  paramname <> "region" -> locate mo (Mapped data pairs) paramname region = Ok v ->
  (exists row w, In row (t_rows data) /\ cell data row paramname = Ok w /\ is_number w = false) ->
  (v = VFloat FNaN /\ forall w, In w (contributions data pairs region paramname) -> w = VFloat FNaN) \/
  In v (contributions data pairs region paramname).
Proof.
  intros mo data pairs paramname region v MO RC HR PR L (row & w & Hrow & Hw & NN). apply String.eqb_neq in PR.
  assert (PN : exists n, index_of paramname (t_columns data) = Ok n) by (unfold cell in Hw; apply bind_ok in Hw as (n & Hn & _); eauto).
  destruct PN as [n PN].
  destruct (locate_group mo data pairs MO paramname region n PN PR v L) as (g & P & _ & V).
  set (value := fun r : pyval * list pyval => nth n (snd r) nan) in *.
  assert (F : forallb is_number (map value (outer_merge mo data pairs)) = false).
  { apply Bool.not_true_iff_false. rewrite forallb_forall. intros H.
    assert (K : In (nth n row nan) (map value (outer_merge mo data pairs))).
    { assert (X : exists b, In (b, row) (outer_merge mo data pairs)).
      { unfold outer_merge. destruct (existsb (fun ab => matches data (fst ab) row) pairs) eqn:EX.
        - apply existsb_exists in EX as ([a b] & H1 & H2). exists b. apply (Permutation_in _ (MO _)). apply in_app_iff. left. apply in_flat_map. exists (a, b).
          split; [exact H1|]. cbn [fst snd] in *. assert (Q : In row (filter (matches data a) (t_rows data))) by (apply filter_In; auto).
          destruct (filter (matches data a) (t_rows data)) as [|r0 rs]; [destruct Q|]. apply in_map. exact Q.
        - exists nan. apply (Permutation_in _ (MO _)). apply in_app_iff. right. apply in_map. apply filter_In. rewrite EX. auto. }
      destruct X as [b X]. apply in_map_iff. exists (b, row). auto. }
    apply H in K. rewrite (cell_nth data RC paramname n PN row Hrow) in Hw. injection Hw as <-. congruence. }
  rewrite F in V. subst v. unfold first.
  assert (GC : forall u, is_nan u = false -> (In u (map value g) <-> In u (contributions data pairs region paramname))).
  { intros u U. pose proof (group_cells data pairs RC paramname region n PN) as GC. fold value in GC.
    assert (KEEP : forall l, In u l <-> In u (flat_map (fun v => if is_nan v then [] else [v]) l)).
    { intros l. rewrite in_flat_map. split.
      - intros H. exists u. split; [exact H|]. rewrite U. left. reflexivity.
      - intros (z & H & Z). destruct (is_nan z); [destruct Z|destruct Z as [->|[]]; exact H]. }
    rewrite (KEEP (contributions data pairs region paramname)), <- GC, <- KEEP. split; intros H.
    - eapply Permutation_in; [apply Permutation_sym, Permutation_map, P|exact H].
    - eapply Permutation_in; [apply Permutation_map, P|exact H]. }
  destruct (find (fun v => negb (is_nan v)) (map value g)) as [u|] eqn:FD.
  - right. apply find_some in FD as [H1 H2]. apply GC; [destruct (is_nan u); [discriminate H2|reflexivity]|exact H1].
  - left. split; [reflexivity|]. intros u Hu. destruct (is_nan u) eqn:U; [destruct u as [| | |[| | |]| | |]; try discriminate U; reflexivity|].
    apply GC in Hu; [|exact U]. pose proof (find_none _ _ FD u Hu) as Z. cbn in Z. rewrite U in Z. discriminate Z.
Qed.
(** A file in the model's own region definition: the one row of that region. *)
Lemma C16_same_regions_pf : forall mo data paramname region x,
  rectangular data -> has_column data "region" = true -> has_column data paramname = true -> paramname <> "region" ->
  entries data (VStr region) paramname = [VFloat x] ->
  container_get mo (Direct data) paramname region = Ok (VFloat x).
Proof.
  intros mo data paramname region x RC HR HP PR E.
  assert (PN : exists n, index_of paramname (t_columns data) = Ok n).
  { unfold has_column in HP. clear - HP. induction (t_columns data) as [|c l IH]; [discriminate|]. cbn in HP |- *.
    destruct (String.eqb c paramname) eqn:E; [eauto|]. rewrite String.eqb_sym, E in HP. cbn in HP. destruct (IH HP) as [m ->]. cbn. eauto. }
  destruct PN as [n PN]. apply String.eqb_neq in PR. rewrite (entries_eq data RC paramname n PN) in E.
  unfold container_get, locate. rewrite PR, PN. cbn [bind]. destruct (filter (matches data (VStr region)) (t_rows data)) as [|row [|r2 rs]] eqn:F; try discriminate E.
  cbn in E. injection E as E. assert (IN : In row (t_rows data)) by (assert (K : In row (filter (matches data (VStr region)) (t_rows data))) by (rewrite F; left; reflexivity); apply filter_In in K as [K _]; exact K).
  pose proof (index_nth _ _ _ PN) as LT. rewrite <- (RC row IN) in LT. rewrite (nth_error_nth' row nan LT), E. reflexivity.
Qed.
(** No conversion table between the file's region definition and the model's: KeyError when the store is created. *)
Lemma C16_missing_mapping_pf : forall disk file type_in type_out ms data, disk file = Ok data -> type_in <> type_out ->
  (forall m, ~ In ((type_in, type_out), m) ms) -> new_container disk file type_in type_out ms = Err KeyError.
Proof.
  intros disk file a b ms data D N M. unfold new_container. rewrite D. cbn [bind]. apply String.eqb_neq in N. rewrite N.
  unfold find_mapper. destruct (find _ (rev ms)) as [[[a' b'] m]|] eqn:F; [|reflexivity]. exfalso. apply find_some in F as [F1 F2]. cbn in F2.
  apply Bool.andb_true_iff in F2 as [E1 E2]. apply String.eqb_eq in E1, E2. subst. apply (M m). apply in_rev, F1.
Qed.

(** *** The same through the configured files: which file and which conversion table are used, and in which direction *)
(** The file regions that the conversion table assigns to a model region. *)
Definition file_regions (conversion : table) (type_in type_out region : string) : list pyval :=
  flat_map (fun row => match cell conversion row type_in, cell conversion row type_out with
                       | Ok a, Ok b => if py_eqb b (VStr region) then [a] else []
                       | _, _ => [] end) (t_rows conversion).
(** Every configured mapping between the two region definitions (in either order) is this table. *)
Definition conversion_table (disk : string -> result table) (mappings : list (string * string * string)) (type_in type_out : string) (conversion : table) : Prop :=
  forall a b f, In (a, b, f) mappings -> (a = type_in /\ b = type_out) \/ (a = type_out /\ b = type_in) -> disk f = Ok conversion.
Lemma pairs_sources t from to region : forall rows l, pairs_of t from to rows = Ok l ->
  sources l region = flat_map (fun row => match cell t row from, cell t row to with
                       | Ok a, Ok b => if py_eqb b (VStr region) then [a] else []
                       | _, _ => [] end) rows.
Proof.
  induction rows as [|row rows IH]; intros l H; cbn [pairs_of] in H; [injection H as <-; reflexivity|].
  apply bind_ok in H as (a & A & H). apply bind_ok in H as (b & B & H). apply bind_ok in H as (l' & L & H). injection H as <-.
  cbn [flat_map]. rewrite A, B, <- (IH _ L). unfold sources. cbn [filter snd]. destruct (py_eqb b (VStr region)); reflexivity.
Qed.
Lemma create_mappers_in disk : forall l ms, create_mappers disk l = Ok ms -> forall a b m, In ((a, b), m) ms ->
  exists f, (In (a, b, f) l \/ In (b, a, f) l) /\ disk f = Ok (m_table m).
Proof.
  induction l as [|[[x y] f] l IH]; intros ms H a b m I; cbn [create_mappers] in H; [injection H as <-; destruct I|].
  apply bind_ok in H as (m1 & M & H). apply bind_ok in H as (ms1 & MS & H). injection H as <-.
  unfold new_mapper in M. apply bind_ok in M as (t & T & M). destruct (_ || _)%bool; [discriminate|]. injection M as <-.
  destruct I as [E|[E|I]].
  - injection E as <- <- <-. exists f. split; [left; left; reflexivity|exact T].
  - injection E as <- <- <-. exists f. split; [right; left; reflexivity|exact T].
  - destruct (IH _ MS _ _ _ I) as (f' & [F|F] & D); exists f'; (split; [|exact D]); [left|right]; right; exact F.
Qed.
Lemma create_categories_in disk ms out : forall l cs, create_categories disk ms out l = Ok cs -> NoDup (map fst l) -> forall category file type_in, In (category, (file, type_in)) l ->
  exists c, assoc category cs = Ok c /\ new_container disk file type_in out ms = Ok c.
Proof.
  induction l as [|[k [f ti]] l IH]; intros cs H ND category file type_in I; [destruct I|]. cbn [create_categories] in H.
  apply bind_ok in H as (c & C & H). apply bind_ok in H as (cs' & CS & H). injection H as <-. cbn [map fst] in ND. inversion ND as [|? ? N1 N2]; subst.
  unfold assoc. cbn [find fst]. destruct I as [E|I].
  - injection E as <- <- <-. rewrite String.eqb_refl. eauto.
  - destruct (String.eqb k category) eqn:E; [|exact (IH _ CS N2 _ _ _ I)]. apply String.eqb_eq in E. subst k. exfalso. apply N1. apply (in_map fst _ _ I).
Qed.
Lemma store_container disk params mappings out files st category file type_in data : new_store disk params mappings out files = Ok st ->
  NoDup (map fst files) -> In (category, (file, type_in)) files -> disk file = Ok data -> st_params st = params /\
  exists c, assoc category (st_categories st) = Ok c /\ has_column data "region" = true /\
    ((type_in = out /\ c = Direct data) \/
     (type_in <> out /\ forall conversion, conversion_table disk mappings type_in out conversion -> exists pairs, c = Mapped data pairs /\ forall region, sources pairs region = file_regions conversion type_in out region)).
Proof.
  intros S ND I D. unfold new_store in S. apply bind_ok in S as (ms & MS & S). apply bind_ok in S as (cs & CS & S). injection S as <-. cbn [st_params st_categories].
  split; [reflexivity|]. destruct (create_categories_in _ _ _ _ _ CS ND _ _ _ I) as (c & A & C). exists c. split; [exact A|].
  unfold new_container in C. rewrite D in C. cbn [bind] in C. destruct (String.eqb type_in out) eqn:E.
  - apply String.eqb_eq in E. destruct (has_column data "region"); [|discriminate]. injection C as <-. split; [reflexivity|]. left. auto.
  - apply String.eqb_neq in E. apply bind_ok in C as (m & M & C). destruct (has_column data "region"); [|discriminate]. apply bind_ok in C as (pairs & P & C). injection C as <-.
    split; [reflexivity|]. right. split; [exact E|]. intros conversion CT. exists pairs. split; [reflexivity|]. intros region.
    unfold find_mapper in M. destruct (find _ _) as [[[a b] m']|] eqn:F; [|discriminate]. injection M as ->. apply find_some in F as [F1 F2]. apply in_rev in F1. cbn [fst snd] in F2.
    apply Bool.andb_true_iff in F2 as [E1 E2]. apply String.eqb_eq in E1, E2. subst a b. destruct (create_mappers_in _ _ _ MS _ _ _ F1) as (f & F & T).
    assert (X : disk f = Ok conversion) by (destruct F as [F|F]; apply (CT _ _ _ F); auto). rewrite T in X. injection X as <-. exact (pairs_sources _ _ _ region _ _ P).
Qed.
(** A region without an own value gets the average of the file's numbers over the file regions its conversion table lists. *)
Lemma C16_configured_mean_pf : forall disk mo params mappings type_out files st category file type_in data conversion paramname region numbers,
  (forall l, Permutation l (mo l)) -> new_store disk params mappings type_out files = Ok st ->
  NoDup (map fst files) -> In (category, (file, type_in)) files -> disk file = Ok data -> type_in <> type_out ->
  conversion_table disk mappings type_in type_out conversion ->
  override params region category paramname = None -> rectangular data -> has_column data paramname = true -> paramname <> "region" ->
  (forall row v, In row (t_rows data) -> cell data row paramname = Ok v -> is_number v = true) ->
  numbers = flat_map q_of (flat_map (fun a => entries data a paramname) (file_regions conversion type_in type_out region)) -> numbers <> [] ->
  exists q, getregional mo st category paramname region = Ok (VFloat (FFin q)) /\ (q == average numbers)%Q.
Proof.
  intros disk mo params mappings out files st category file type_in data conversion paramname region numbers MO S ND I D NE CT OV RC HP PR NUM EN NN.
  destruct (store_container _ _ _ _ _ _ _ _ _ _ S ND I D) as (SP & c & A & HR & [[E _]|[_ K]]); [contradiction|]. destruct (K _ CT) as (pairs & -> & SR).
  assert (C : contributions data pairs region paramname = flat_map (fun a => entries data a paramname) (file_regions conversion type_in out region)) by (unfold contributions; rewrite SR; reflexivity).
  destruct (C16_mean_of_sources_pf mo data pairs paramname region MO RC HR HP PR NUM) as (q & G & Q); [rewrite C, <- EN; exact NN|].
  exists q. split; [|rewrite Q, C, <- EN; reflexivity]. rewrite C15_otherwise_file_value_pf by (rewrite SP; exact OV). unfold file_value. rewrite A. exact G.
Qed.
(** When file and model use the same regions, the file's number is used unchanged. *)
Lemma C16_configured_same_regions_pf : forall disk mo params mappings regionstype files st category file data paramname region x,
  new_store disk params mappings regionstype files = Ok st ->
  NoDup (map fst files) -> In (category, (file, regionstype)) files -> disk file = Ok data ->
  override params region category paramname = None -> rectangular data -> has_column data paramname = true -> paramname <> "region" ->
  entries data (VStr region) paramname = [VFloat x] ->
  getregional mo st category paramname region = Ok (VFloat x).
Proof.
  intros disk mo params mappings out files st category file data paramname region x S ND I D OV RC HP PR E.
  destruct (store_container _ _ _ _ _ _ _ _ _ _ S ND I D) as (SP & c & A & HR & [[_ ->]|[N _]]); [|contradiction].
  rewrite C15_otherwise_file_value_pf by (rewrite SP; exact OV). unfold file_value. rewrite A. apply (C16_same_regions_pf mo data paramname region x RC HR HP PR E).
Qed.
Lemma has_column_index t c : has_column t c = true -> exists n, index_of c (t_columns t) = Ok n /\ (n < List.length (t_columns t))%nat.
Proof.
  unfold has_column. induction (t_columns t) as [|x l IH]; [discriminate|]. cbn [existsb index_of List.length]. rewrite (String.eqb_sym x c).
  destruct (String.eqb c x); cbn [orb]; intros H; [exists 0%nat; split; [reflexivity|lia]|].
  destruct (IH H) as (n & -> & L). exists (S n). split; [reflexivity|lia].
Qed.
Lemma pairs_ok t from to : rectangular t -> has_column t from = true -> has_column t to = true ->
  forall rows, (forall row, In row rows -> In row (t_rows t)) -> exists l, pairs_of t from to rows = Ok l.
Proof.
  intros RC F T. destruct (has_column_index _ _ F) as (n & N & LN). destruct (has_column_index _ _ T) as (m & M & LM).
  induction rows as [|row rows IH]; intros H; [exists []; reflexivity|].
  destruct IH as (l & L); [intros r R; apply H; right; exact R|]. cbn [pairs_of]. unfold cell. rewrite N, M. cbn [bind].
  pose proof (RC row (H row (or_introl eq_refl))) as W.
  destruct (nth_error row n) eqn:E1; [|apply nth_error_None in E1; lia].
  destruct (nth_error row m) eqn:E2; [|apply nth_error_None in E2; lia]. cbn [bind]. rewrite L. cbn [bind]. eauto.
Qed.
Lemma create_mappers_ok disk : forall l,
  (forall a b f, In (a, b, f) l -> exists t, disk f = Ok t /\ has_column t a = true /\ has_column t b = true) ->
  exists ms, create_mappers disk l = Ok ms /\
    forall a b f, In (a, b, f) l -> (exists m, In ((a, b), m) ms) /\ (exists m, In ((b, a), m) ms).
Proof.
  induction l as [|[[a b] f] l IH]; intros H; [exists []; split; [reflexivity|intros ? ? ? []]|].
  destruct IH as (ms & MS & K); [intros; eapply H; right; eassumption|].
  destruct (H a b f (or_introl eq_refl)) as (t & T & HA & HB). cbn [create_mappers]. unfold new_mapper. rewrite T. cbn [bind].
  rewrite HA, HB. cbn [negb orb bind]. rewrite MS. cbn [bind]. eexists. split; [reflexivity|].
  intros x y g [E|E].
  - injection E as <- <- <-. split; eexists; [left|right; left]; reflexivity.
  - destruct (K _ _ _ E) as [[m1 M1] [m2 M2]]. split; eexists; right; right; eassumption.
Qed.
(** Every parameter file whose region definition is the model's, or is connected to it by a conversion table
    (given in either direction), can be used. *)
Lemma C16_store_created_pf : forall disk params mappings type_out files,
  (forall a b f, In (a, b, f) mappings -> exists t, disk f = Ok t /\ has_column t a = true /\ has_column t b = true /\ rectangular t) ->
  (forall category file type_in, In (category, (file, type_in)) files ->
     (exists data, disk file = Ok data /\ has_column data "region" = true) /\
     (type_in = type_out \/ exists f, In (type_in, type_out, f) mappings \/ In (type_out, type_in, f) mappings)) ->
  exists st, new_store disk params mappings type_out files = Ok st.
Proof.
  intros disk params mappings out files HM HF. unfold new_store.
  destruct (create_mappers_ok disk mappings) as (ms & MS & K).
  { intros a b f I. destruct (HM a b f I) as (t & T & A & B & _). exists t. auto. }
  rewrite MS. cbn [bind].
  assert (C : forall l, (forall x, In x l -> In x files) -> exists cs, create_categories disk ms out l = Ok cs).
  { induction l as [|[category [file type_in]] l IH]; intros I; [exists []; reflexivity|].
    destruct IH as (cs & CS); [intros x X; apply I; right; exact X|]. cbn [create_categories].
    destruct (HF category file type_in (I _ (or_introl eq_refl))) as ((data & D & R) & L). unfold new_container. rewrite D. cbn [bind].
    destruct (String.eqb type_in out) eqn:E; [rewrite R; cbn [bind]; rewrite CS; cbn [bind]; eauto|]. apply String.eqb_neq in E.
    destruct L as [L|L]; [contradiction|].
    assert (X : exists m, In ((type_in, out), m) ms) by (destruct L as (f & [F|F]); [exact (proj1 (K _ _ _ F))|exact (proj2 (K _ _ _ F))]).
    unfold find_mapper. destruct (find _ (rev ms)) as [[[a b] m]|] eqn:FD.
    - cbn [bind]. rewrite R. apply find_some in FD as [F1 F2]. apply in_rev in F1. cbn [fst snd] in F2.
      apply Bool.andb_true_iff in F2 as [E1 E2]. apply String.eqb_eq in E1, E2. subst a b.
      destruct (create_mappers_in _ _ _ MS _ _ _ F1) as (f & F & T).
      assert (W : rectangular (m_table m) /\ has_column (m_table m) type_in = true /\ has_column (m_table m) out = true).
      { destruct F as [F|F]; destruct (HM _ _ _ F) as (t & T' & A & B & C); rewrite T in T'; injection T' as <-; auto. }
      destruct W as (W1 & W2 & W3). destruct (pairs_ok _ _ _ W1 W2 W3 (t_rows (m_table m)) (fun r H => H)) as (pairs & P).
      rewrite P. cbn [bind]. rewrite CS. cbn [bind]. eauto.
    - exfalso. destruct X as [m X]. apply in_rev in X. apply (find_none _ _ FD) in X. cbn [fst snd] in X. rewrite !String.eqb_refl in X. discriminate. }
  destruct (C files (fun x H => H)) as (cs & ->). cbn [bind]. eauto.
Qed.
(** Without any row for the region: KeyError; with several rows: TypeError.  Neither goes unnoticed. *)
Lemma C16_configured_row_missing_pf : forall disk mo params mappings regionstype files st category file data paramname region,
  new_store disk params mappings regionstype files = Ok st ->
  NoDup (map fst files) -> In (category, (file, regionstype)) files -> disk file = Ok data ->
  override params region category paramname = None -> rectangular data -> has_column data paramname = true ->
  (entries data (VStr region) paramname = [] -> getregional mo st category paramname region = Err KeyError) /\
  (forall x y l, paramname <> "region" -> entries data (VStr region) paramname = x :: y :: l -> getregional mo st category paramname region = Err TypeError).
Proof.
  intros disk mo params mappings out files st category file data paramname region S ND I D OV RC HP.
  destruct (store_container _ _ _ _ _ _ _ _ _ _ S ND I D) as (SP & c & A & HR & [[_ ->]|[N _]]); [|contradiction].
  rewrite C15_otherwise_file_value_pf by (rewrite SP; exact OV). unfold file_value. rewrite A. cbn [bind].
  destruct (has_column_index _ _ HP) as (n & N & _). unfold container_get, locate.
  rewrite (entries_eq data RC paramname n N). split.
  - intros E. apply map_eq_nil in E. destruct (String.eqb paramname "region"); [reflexivity|]. rewrite N. cbn [bind]. rewrite E. reflexivity.
  - intros x y l PR E. apply String.eqb_neq in PR. rewrite PR, N. cbn [bind].
    destruct (filter _ _) as [|r1 [|r2 rs]]; [discriminate|discriminate|]. reflexivity.
Qed.
