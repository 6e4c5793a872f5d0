(** C14 (cache transparency), and the parts of C12 about files. *)
From Verif Require Import PyBase TimeGrid TimeGridLemmas DataStore.
Import ListNotations.
Open Scope R_scope.
Open Scope string_scope.

(** *** Specification *)
(** The series a datasource names in a file read from disk, without any cache. *)
Definition in_file (t : table) (s : source) (region : string) : result series :=
  select (lower_columns t) (s_model s, s_scenario s, region, s_variable s).
(** The process after any history of data stores, successful or not; the disk may differ at every one. *)
Fixpoint after (uf : string -> string -> result R) (sp : list R -> list R -> result (R -> R))
    (h : list ((string -> result table) * store_args)) (c : caches) : caches :=
  match h with [] => c | (disk, a) :: h => after uf sp h (fst (data_store disk uf sp a c)) end.
Definition loaded (c : caches) (f : string) : Prop := databases c f <> None.

Lemma key4_eqb_eq a b : key4_eqb a b = true <-> a = b.
Proof.
  destruct a as [[[a1 a2] a3] a4], b as [[[b1 b2] b3] b4]. cbn. rewrite !Bool.andb_true_iff, !String.eqb_eq. split; [intros [[[-> ->] ->] ->]; reflexivity|intros E; injection E; auto].
Qed.

(** Invariant: every loaded file has one version, [version f], and the cache holds rows of it. *)
Definition Inv (version : string -> option table) (c : caches) : Prop := forall f,
  (version f = None /\ databases c f = None /\ cached_data c f = None) \/
  (exists t m, version f = Some t /\ databases c f = Some (lower_columns t) /\ cached_data c f = Some m /\
     forall k x, m k = Some x -> select (lower_columns t) k = Ok x).
Lemma Inv_empty : Inv (fun _ => None) empty_caches.
Proof. intros f. left. auto. Qed.

Section Proofs.
  Variables (uf : string -> string -> result R) (sp : list R -> list R -> result (R -> R)).

  (** Cache-free counterparts, from file versions. *)
  Definition read (version : string -> option table) (disk : string -> result table) (f : string) : result table :=
    match version f with Some t => Ok t | None => disk f end.
  Definition pure_data (rd : string -> result table) (ys : list R) (r : string) (s : source) : result (list R) :=
    do t <- rd (s_file s); do x <- in_file t s r; convert uf sp s ys x.
  Fixpoint pure_values rd ys (rs : list string) (s : source) : result (list (string * list R)) :=
    match rs with
    | [] => Ok []
    | r :: rest => do v <- pure_data rd ys r s; do l <- pure_values rd ys rest s; Ok ((r, v) :: l)
    end.
  Fixpoint pure_load rd ys rs (vars : list (string * source)) : result (list (string * list (string * list R))) :=
    match vars with
    | [] => Ok []
    | (name, s) :: rest =>
        do _ <- rd (s_file s); do v <- pure_values rd ys rs s; do l <- pure_load rd ys rs rest; Ok ((name, v) :: l)
    end.

  Lemma get_cached_inv ver c s r : Inv ver c -> loaded c (s_file s) ->
    let (c', x) := get_cached s r c in
    Inv ver c' /\ (forall f, databases c' f = databases c f) /\
    x = match ver (s_file s) with Some t => in_file t s r | None => Err KeyError end.
  Proof.
    intros I L. unfold get_cached, in_file. destruct (I (s_file s)) as [(A & B & C)|(t & m & A & B & C & D)]; [contradiction|].
    rewrite C, A. destruct (m _) as [x|] eqn:M.
    - split; [exact I|]. split; [auto|]. symmetry. apply D, M.
    - rewrite B. destruct (select _ _) as [x|e] eqn:S; [|split; [exact I|auto]].
      split; [|split; [auto|reflexivity]]. intros f. cbn. destruct (String.eqb f (s_file s)) eqn:E.
      + apply String.eqb_eq in E. subst f. right. exists t. eexists. split; [exact A|]. split; [exact B|]. split; [reflexivity|].
        intros k y. cbn. destruct (key4_eqb k _) eqn:K; [|apply D]. apply key4_eqb_eq in K. subst k. intros Y. injection Y as <-. exact S.
      + apply I.
  Qed.
  Lemma get_data_inv ver c s r ys : Inv ver c -> loaded c (s_file s) ->
    let (c', x) := get_data uf sp ys r s c in
    Inv ver c' /\ (forall f, databases c' f = databases c f) /\
    forall disk, x = pure_data (read ver disk) ys r s.
  Proof.
    intros I L. unfold get_data, pure_data, read. pose proof (get_cached_inv ver c s r I L) as H.
    destruct (get_cached s r c) as [c' x]. destruct H as (H1 & H2 & H3).
    assert (V : exists t, ver (s_file s) = Some t) by (destruct (I (s_file s)) as [(A & B & C)|(t & m & A & _)]; [contradiction|eauto]).
    destruct V as [t V]. rewrite V in *. subst x. cbn [bind]. destruct (in_file t s r); cbn [bind]; (split; [exact H1|split; [exact H2|reflexivity]]).
  Qed.
  Lemma values_inv ver s ys rs : forall c, Inv ver c -> loaded c (s_file s) ->
    let (c', x) := create_data_values uf sp ys rs s c in
    Inv ver c' /\ (forall f, databases c' f = databases c f) /\
    forall disk, x = pure_values (read ver disk) ys rs s.
  Proof.
    induction rs as [|r rs IH]; intros c I L; [cbn; auto|]. cbn [create_data_values pure_values].
    pose proof (get_data_inv ver c s r ys I L) as H. destruct (get_data uf sp ys r s c) as [c1 x]. destruct H as (H1 & H2 & H3).
    destruct x as [v|e].
    - assert (L1 : loaded c1 (s_file s)) by (unfold loaded; rewrite H2; exact L).
      specialize (IH c1 H1 L1). destruct (create_data_values uf sp ys rs s c1) as [c2 y]. destruct IH as (J1 & J2 & J3).
      split; [exact J1|]. split; [intros f; rewrite J2; apply H2|]. intros disk. rewrite <- (H3 disk). cbn. rewrite (J3 disk). reflexivity.
    - split; [exact H1|]. split; [exact H2|]. intros disk. rewrite <- (H3 disk). reflexivity.
  Qed.
  Lemma load_inv disk ys rs vars : forall ver c, Inv ver c ->
    let (c', x) := load_variables disk uf sp ys rs vars c in
    (exists ver', Inv ver' c' /\ (forall f t, ver' f = Some t -> ver f = Some t \/ (ver f = None /\ disk f = Ok t)) /\
                  (forall f t, ver f = Some t -> ver' f = Some t)) /\
    x = pure_load (read ver disk) ys rs vars.
  Proof.
    induction vars as [|[name s] vars IH]; intros ver c I; [cbn; split; [exists ver; auto|reflexivity]|].
    cbn [load_variables pure_load].
    (* select_database *)
    assert (S : let (c1, u) := select_database disk (s_file s) c in
      (exists v1, Inv v1 c1 /\ (forall f t, v1 f = Some t -> ver f = Some t \/ (ver f = None /\ disk f = Ok t)) /\
         (forall f t, ver f = Some t -> v1 f = Some t) /\ (forall f, read v1 disk f = read ver disk f) /\ (u = Ok tt -> loaded c1 (s_file s))) /\
      u = (do _ <- read ver disk (s_file s); Ok tt)).
    { unfold select_database. destruct (I (s_file s)) as [(A & B & C)|(t & m & A & B & C & D)].
      - rewrite B. assert (RV : read ver disk (s_file s) = disk (s_file s)) by (unfold read; rewrite A; reflexivity). rewrite RV. destruct (disk (s_file s)) as [t|e] eqn:E.
        + split; [|reflexivity]. exists (fun g => if String.eqb g (s_file s) then Some t else ver g). split; [|split; [|split; [|split]]].
          * intros f. cbn. destruct (String.eqb f (s_file s)) eqn:F; [|apply I]. right. exists t. eexists. split; [reflexivity|]. split; [reflexivity|].
            split; [reflexivity|]. discriminate.
          * intros f u. destruct (String.eqb f (s_file s)) eqn:F; [|auto]. apply String.eqb_eq in F. subst f. intros X. injection X as <-. auto.
          * intros f u X. destruct (String.eqb f (s_file s)) eqn:F; [|auto]. apply String.eqb_eq in F. subst f. congruence.
          * intros f. unfold read. destruct (String.eqb f (s_file s)) eqn:F; [|reflexivity]. apply String.eqb_eq in F. subst f. rewrite A. auto.
          * intros _. unfold loaded. cbn. rewrite String.eqb_refl. discriminate.
        + split; [|reflexivity]. exists ver. split; [exact I|]. split; [auto|]. split; [auto|]. split; [auto|]. discriminate.
      - rewrite B. assert (RV : read ver disk (s_file s) = Ok t) by (unfold read; rewrite A; reflexivity). rewrite RV. split; [|reflexivity]. exists ver. split; [exact I|]. split; [auto|]. split; [auto|]. split; [auto|].
        intros _. unfold loaded. rewrite B. discriminate. }
    destruct (select_database disk (s_file s) c) as [c1 u]. destruct S as [(v1 & I1 & V1 & W1 & R1 & L1) ->].
    assert (RE : forall f, read v1 disk f = read ver disk f) by exact R1.
    destruct (read ver disk (s_file s)) as [t|e] eqn:RD; cbn [bind].
    - specialize (L1 eq_refl). pose proof (values_inv v1 s ys rs c1 I1 L1) as H.
      destruct (create_data_values uf sp ys rs s c1) as [c2 x]. destruct H as (H1 & H2 & H3).
      assert (PE : forall rd rd', (forall f, rd f = rd' f) -> forall rs s, pure_values rd ys rs s = pure_values rd' ys rs s).
      { intros rd rd' Q rs0 s0. induction rs0; cbn; [reflexivity|]. unfold pure_data. rewrite Q, IHrs0. reflexivity. }
      assert (PL : forall rd rd', (forall f, rd f = rd' f) -> forall vars, pure_load rd ys rs vars = pure_load rd' ys rs vars).
      { intros rd rd' Q vs. induction vs as [|[n0 s0] vs IHv]; cbn; [reflexivity|]. rewrite Q, (PE rd rd' Q), IHv. reflexivity. }
      rewrite <- (PE _ _ RE), <- (H3 disk). destruct x as [v|e].
      + specialize (IH v1 c2 H1). destruct (load_variables disk uf sp ys rs vars c2) as [c3 y]. destruct IH as [(v2 & I2 & V2 & W2) ->].
        split; [|cbn; rewrite (PL _ _ RE); reflexivity].
        exists v2. split; [exact I2|]. split; [|auto]. intros f t' X. destruct (V2 f t' X) as [Y|[Y Z]]; [apply V1, Y|].
        right. split; [|exact Z]. destruct (ver f) eqn:Q; [|reflexivity]. rewrite (W1 _ _ Q) in Y. discriminate Y.
      + split; [|reflexivity]. exists v1. auto.
    - split; [|reflexivity]. exists v1. auto.
  Qed.
  Lemma after_inv h : forall ver c, Inv ver c -> exists ver', Inv ver' (after uf sp h c) /\
    (forall f t, ver f = Some t -> ver' f = Some t) /\
    (forall f t, ver' f = Some t -> ver f = Some t \/ exists disk a, In (disk, a) h /\ disk f = Ok t).
  Proof.
    induction h as [|[disk a] h IH]; intros ver c I; [exists ver; auto|]. cbn [after].
    pose proof (load_inv disk (data_years (a_start a) (a_end a) (a_dt a)) (a_regions a) (a_variables a) ver c I) as H.
    unfold data_store. destruct (load_variables _ _ _ _ _ _ c) as [c' x]. destruct H as [(v1 & I1 & V1 & W1) _]. cbn [fst].
    destruct (IH v1 c' I1) as (v2 & I2 & W2 & V2). exists v2. split; [exact I2|]. split; [auto|].
    intros f t X. destruct (V2 f t X) as [Y|(d & b & Y & Z)].
    - destruct (V1 f t Y) as [?|[_ ?]]; [auto|]. right. exists disk, a. split; [left; reflexivity|assumption].
    - right. exists d, b. split; [right; exact Y|exact Z].
  Qed.
  Lemma pure_ext rd rd' ys rs vars : (forall f, rd f = rd' f) -> pure_load rd ys rs vars = pure_load rd' ys rs vars.
  Proof.
    intros Q. induction vars as [|[n s] vs IH]; cbn; [reflexivity|]. rewrite Q, IH.
    assert (PE : pure_values rd ys rs s = pure_values rd' ys rs s) by (clear IH; induction rs as [|r0 rs IHr]; cbn; [reflexivity|unfold pure_data; rewrite Q, IHr; reflexivity]).
    rewrite PE. reflexivity.
  Qed.
End Proofs.

(** If the files do not change, a data store gets the same result (values or exception) after any
    history, successes and failures alike, as in a fresh process. *)
Lemma C14_cache_transparent_pf : forall uf sp disk h a, (forall d b, In (d, b) h -> d = disk) ->
  snd (data_store disk uf sp a (after uf sp h empty_caches)) = snd (data_store disk uf sp a empty_caches).
Proof.
  intros uf sp disk h a H. destruct (after_inv uf sp h _ _ Inv_empty) as (v & I & _ & V).
  unfold data_store.
  pose proof (load_inv uf sp disk (data_years (a_start a) (a_end a) (a_dt a)) (a_regions a) (a_variables a) _ _ I) as A.
  pose proof (load_inv uf sp disk (data_years (a_start a) (a_end a) (a_dt a)) (a_regions a) (a_variables a) _ _ Inv_empty) as B.
  destruct (load_variables _ _ _ _ _ _ (after uf sp h empty_caches)) as [c1 x1]. destruct (load_variables _ _ _ _ _ _ empty_caches) as [c2 x2].
  cbn [snd]. destruct A as [_ ->]. destruct B as [_ ->]. apply pure_ext. intros f. unfold read. destruct (v f) eqn:E; [|reflexivity].
  destruct (V f _ E) as [D|(d & b & Hin & D)]; [discriminate D|]. rewrite (H _ _ Hin) in D. symmetry. exact D.
Qed.

Lemma bind_ok {A B} (x : result A) (f : A -> result B) y : bind x f = Ok y -> exists a, x = Ok a /\ f a = Ok y.
Proof. destruct x; cbn; [eauto|discriminate]. Qed.
Lemma pure_values_spec uf sp rd ys rs s l : pure_values uf sp rd ys rs s = Ok l ->
  map fst l = rs /\ forall r v, In (r, v) l -> pure_data uf sp rd ys r s = Ok v.
Proof.
  revert l. induction rs as [|r rs IH]; intros l H; [injection H as <-; cbn; split; [reflexivity|intros ? ? []]|]. cbn in H.
  apply bind_ok in H as (v & H1 & H). apply bind_ok in H as (l' & H2 & H). injection H as <-. destruct (IH _ H2) as [E' K].
  split; [cbn; f_equal; exact E'|]. intros r' v' [E|E]; [injection E as <- <-; exact H1|auto].
Qed.
Lemma pure_load_spec uf sp rd ys rs vars l : pure_load uf sp rd ys rs vars = Ok l ->
  map fst l = map fst vars /\ forall name s values, In ((name, s), (name, values)) (combine vars l) ->
    map fst values = rs /\ forall r v, In (r, v) values -> pure_data uf sp rd ys r s = Ok v.
Proof.
  revert l. induction vars as [|[n s] vars IH]; intros l H; [injection H as <-; cbn; split; [reflexivity|intros ? ? ? []]|]. cbn in H.
  apply bind_ok in H as (t & H0 & H). apply bind_ok in H as (v & H1 & H). apply bind_ok in H as (l' & H2 & H). injection H as <-.
  destruct (IH _ H2) as [E K]. split; [cbn; f_equal; exact E|]. cbn [combine].
  intros n' s' vs' [X|X]; [injection X; intros; subst; exact (pure_values_spec _ _ _ _ _ _ _ H1)|eauto].
Qed.

(** What a store holds: for every configured variable and region, the converted series of the one matching
    row of the file on disk (or of the version of the file read first in this process). *)
Lemma C14_store_holds_file_data_pf : forall uf sp disk h a out name s values r v,
  NoDup (map fst (a_variables a)) ->
  snd (data_store disk uf sp a (after uf sp h empty_caches)) = Ok out ->
  In (name, s) (a_variables a) -> In (name, values) out -> In (r, v) values ->
  map fst values = a_regions a /\
  exists t x, (disk (s_file s) = Ok t \/ exists d b, In (d, b) h /\ d (s_file s) = Ok t) /\
    in_file t s r = Ok x /\ convert uf sp s (data_years (a_start a) (a_end a) (a_dt a)) x = Ok v.
Proof.
  intros uf sp disk h a out name s values r v ND O Hs Hv Hr. destruct (after_inv uf sp h _ _ Inv_empty) as (ver & I & _ & V).
  unfold data_store in O. pose proof (load_inv uf sp disk (data_years (a_start a) (a_end a) (a_dt a)) (a_regions a) (a_variables a) _ _ I) as A.
  destruct (load_variables _ _ _ _ _ _ (after uf sp h empty_caches)) as [c1 x1]. cbn [snd] in O. destruct A as [_ A]. rewrite A in O.
  destruct (pure_load_spec _ _ _ _ _ _ _ O) as [E K].
  assert (C : In ((name, s), (name, values)) (combine (a_variables a) out)).
  { clear - ND Hs Hv E. revert out E Hv. induction (a_variables a) as [|[n0 s0] l IH]; intros out E Hv; [destruct Hs|].
    destruct out as [|[n1 v1] out]; [destruct Hv|]. cbn in E. injection E as E1 E2. subst n1. cbn. inversion ND as [|? ? N1 N2]; subst.
    destruct Hs as [Hs|Hs], Hv as [Hv|Hv].
    - injection Hs as -> ->. injection Hv as ->. left. reflexivity.
    - injection Hs as -> ->. exfalso. apply N1. cbn. rewrite <- E2. change name with (fst (name, values)). apply in_map, Hv.
    - injection Hv as -> ->. exfalso. apply N1. cbn. change name with (fst (name, s)). apply in_map, Hs.
    - right. apply IH; auto. }
  destruct (K _ _ _ C) as [K1 K2]. split; [exact K1|]. specialize (K2 _ _ Hr). unfold pure_data in K2.
  apply bind_ok in K2 as (t & T & K2). apply bind_ok in K2 as (x & X & K2). exists t, x. split; [|auto].
  unfold read in T. destruct (ver (s_file s)) eqn:W; [|auto]. injection T as ->. right. destruct (V _ _ W) as [D|D]; [discriminate D|exact D].
Qed.
(** A file that was read once is never read again: later changes of it on disk have no effect in this process. *)
Lemma C14_first_version_wins_pf : forall uf sp h c disk disk' a, c = after uf sp h empty_caches ->
  (forall f, ~ loaded c f -> disk f = disk' f) ->
  snd (data_store disk uf sp a c) = snd (data_store disk' uf sp a c).
Proof.
  intros uf sp h c disk disk' a -> H. destruct (after_inv uf sp h _ _ Inv_empty) as (v & I & _ & _). set (c := after uf sp h empty_caches) in *.
  unfold data_store.
  pose proof (load_inv uf sp disk (data_years (a_start a) (a_end a) (a_dt a)) (a_regions a) (a_variables a) _ _ I) as A.
  pose proof (load_inv uf sp disk' (data_years (a_start a) (a_end a) (a_dt a)) (a_regions a) (a_variables a) _ _ I) as B.
  destruct (load_variables disk _ _ _ _ _ c) as [c1 x1]. destruct (load_variables disk' _ _ _ _ _ c) as [c2 x2].
  cbn [snd]. destruct A as [_ ->]. destruct B as [_ ->]. apply pure_ext. intros f. unfold read. destruct (v f) eqn:E; [reflexivity|].
  apply H. unfold loaded. destruct (I f) as [(_ & B & _)|(t & m & X & _)]; [rewrite B; auto|congruence].
Qed.

(** *** C12 *)
Lemma map_result_length {A B} (f : A -> result B) l l' : map_result f l = Ok l' -> List.length l' = List.length l.
Proof.
  revert l'. induction l as [|x l IH]; intros l' H; cbn in H; [injection H as <-; reflexivity|].
  apply bind_ok in H as (y & _ & H). apply bind_ok in H as (ys & H1 & H). injection H as <-. cbn. f_equal. auto.
Qed.
Lemma convert_inv uf sp s out x v : convert uf sp s out x = Ok v ->
  exists raw u k ext f, map_result number (cells x) = Ok raw /\ unit_label x = VStr u /\ uf u (s_unit s) = Ok k /\
    extrapolate (map (Rmult k) raw) (years x) extra_years = Ok ext /\ sp (years x ++ extra_years)%list ext = Ok f /\
    forallb (in_range (years x ++ extra_years)%list) out = true /\ v = map f out.
Proof.
  unfold convert. intros H. apply bind_ok in H as (raw & H1 & H). destruct (unit_label x) eqn:U; try discriminate.
  apply bind_ok in H as (k & H2 & H). apply bind_ok in H as (ext & H3 & H). unfold interpolate in H. apply bind_ok in H as (f & H4 & H).
  destruct (forallb _ out) eqn:F; [|discriminate]. injection H as <-. exists raw, s0, k, ext, f. auto 10.
Qed.
Lemma fold_min_in x r : In (fold_right Rmin x r) (x :: r).
Proof. induction r as [|y r IH]; [left; reflexivity|]. cbn [fold_right]. unfold Rmin at 1. destruct (Rle_dec _ _); [right; left; reflexivity|]. destruct IH; [left; auto|right; right; auto]. Qed.
Lemma fold_max_in x r : In (fold_right Rmax x r) (x :: r).
Proof. induction r as [|y r IH]; [left; reflexivity|]. cbn [fold_right]. unfold Rmax at 1. destruct (Rle_dec _ _); [destruct IH; [left; auto|right; right; auto]|right; left; reflexivity]. Qed.
Lemma in_range_spec xs y : in_range xs y = true -> exists a b, In a xs /\ In b xs /\ a <= y <= b.
Proof.
  unfold in_range. destruct xs as [|x r]; [discriminate|]. destruct (Rle_dec _ y); [|discriminate]. destruct (Rle_dec y _); [|discriminate].
  intros _. exists (fold_right Rmin x r), (fold_right Rmax x r). split; [apply fold_min_in|split; [apply fold_max_in|auto]].
Qed.
(** A store can only be created for horizons covered by the data: some year of the series (or of its
    extrapolation, 2110 to 2250) lies at or before the start year, and one at or after the last requested
    year.  With the bundled files (2010-2100) a start before 2010, or an end after 2200 + dt, fails with
    ValueError although the configuration accepts 1900-2100 and 1901-2300. *)
Lemma C12_horizon_must_be_covered_pf : forall uf sp disk h a out name s r v values,
  NoDup (map fst (a_variables a)) -> 0 < a_dt a <= 20 -> a_start a <= a_end a ->
  snd (data_store disk uf sp a (after uf sp h empty_caches)) = Ok out ->
  In (name, s) (a_variables a) -> In (name, values) out -> In (r, v) values ->
  exists t x, in_file t s r = Ok x /\
    (exists y, In y (years x ++ extra_years) /\ y <= a_start a) /\
    (exists y, In y (years x ++ extra_years) /\ a_end a + 50 - a_dt a <= y) /\
    ((forall y, In y (years x) -> 2010 <= y <= 2100) -> 2010 <= a_start a /\ a_end a <= 2200 + a_dt a).
Proof.
  intros uf sp disk h a out name s r v values ND D SE O Hs Hv Hr.
  destruct (C14_store_holds_file_data_pf uf sp disk h a out name s values r v ND O Hs Hv Hr) as (_ & t & x & _ & F & C).
  apply convert_inv in C as (raw & u & k & ext & f & _ & _ & _ & _ & _ & C & _). rewrite forallb_forall in C.
  destruct (C12_requested_years_pf (a_start a) (a_end a) (a_dt a) D SE) as (A & last & L & B & _).
  set (ys := data_years (a_start a) (a_end a) (a_dt a)) in *.
  assert (NE : ys <> []).
  { intros E. rewrite E in L. cbn in L. rewrite E in A. cbn in A. destruct D. lra. }
  assert (I0 : In (nth 0 ys 0) ys) by (apply nth_In; destruct ys; [congruence|cbn; lia]).
  assert (I1 : In last ys) by (rewrite L; apply nth_In; destruct ys; [congruence|cbn; lia]).
  apply C, in_range_spec in I0 as (a0 & _ & Q1 & _ & Q2 & _). apply C, in_range_spec in I1 as (_ & b1 & _ & Q3 & _ & Q4).
  rewrite A in Q2. exists t, x. split; [exact F|]. split; [eauto|]. split; [exists b1; split; [exact Q3|lra]|].
  assert (EX : forall y, In y extra_years -> 2110 <= y <= 2250).
  { intros y Hy. unfold extra_years in Hy. cbn in Hy. repeat (destruct Hy as [<-|Hy]; [lra|]). destruct Hy. }
  intros Y. split.
  - apply in_app_iff in Q1 as [Q1|Q1]; [apply Y in Q1; lra|apply EX in Q1; lra].
  - apply in_app_iff in Q3 as [Q3|Q3]; [apply Y in Q3; lra|apply EX in Q3; lra].
Qed.
Lemma assoc_in {A} (l : list (string * A)) k v : NoDup (map fst l) -> In (k, v) l -> assoc k l = Ok v.
Proof.
  unfold assoc. induction l as [|[k' v'] l IH]; intros N H; [destruct H|]. cbn. inversion N as [|? ? N1 N2]; subst. destruct H as [E|H].
  - injection E as -> ->. rewrite String.eqb_refl. reflexivity.
  - destruct (String.eqb k' k) eqn:E; [|apply IH; auto]. apply String.eqb_eq in E. subst k'. exfalso. apply N1. change k with (fst (k, v)). apply in_map, H.
Qed.
(** What the interpolation library guarantees: the curve passes through its points. *)
Definition through_points (sp : list R -> list R -> result (R -> R)) : Prop :=
  forall xs ys f, sp xs ys = Ok f -> List.length xs = List.length ys ->
    forall i, (i < List.length xs)%nat -> f (nth i xs 0) = nth i ys 0.
(** scipy's cubic interp1d and InterpolatedUnivariateSpline: defined for at least four increasing points *)
Definition spline_defined (sp : list R -> list R -> result (R -> R)) : Prop :=
  forall xs ys, TimeGridLemmas.increasing xs -> List.length ys = List.length xs -> (4 <= List.length xs)%nat -> exists f, sp xs ys = Ok f.
(** In the model years that are years of the file, the model gets exactly the file's number (converted to
    the configured unit): splines pass through their points, and the rest of the chain is exact. *)
Lemma C12_file_years_exact_pf : forall uf sp disk h a out name s r,
  through_points sp -> NoDup (map fst (a_variables a)) -> NoDup (a_regions a) -> 0 < a_dt a <= 20 -> a_start a <= a_end a ->
  snd (data_store disk uf sp a (after uf sp h empty_caches)) = Ok out ->
  In (name, s) (a_variables a) -> In r (a_regions a) ->
  exists t x raw u k, in_file t s r = Ok x /\ map_result number (cells x) = Ok raw /\ unit_label x = VStr u /\
    uf u (s_unit s) = Ok k /\
    (List.length (cells x) = List.length (years x) ->
     forall step j, In step (model_steps (a_start a) (a_end a) (a_dt a)) -> (j < List.length (years x))%nat ->
       nth j (years x) 0 = year_at (a_start a) (a_dt a) step ->
       interp_data a out (year_at (a_start a) (a_dt a) step) r name = Ok (k * nth j raw 0)).
Proof.
  intros uf sp disk h a out name s r SP ND NR D SE O Hs Hr.
  assert (VA : exists values, In (name, values) out).
  { destruct (after_inv uf sp h _ _ Inv_empty) as (ver & I & _). unfold data_store in O.
    pose proof (load_inv uf sp disk (data_years (a_start a) (a_end a) (a_dt a)) (a_regions a) (a_variables a) _ _ I) as A.
    destruct (load_variables _ _ _ _ _ _ (after uf sp h empty_caches)) as [c1 x1]. cbn [snd] in O. destruct A as [_ A]. rewrite A in O.
    destruct (pure_load_spec _ _ _ _ _ _ _ O) as [E _]. assert (In name (map fst out)) by (rewrite E; change name with (fst (name, s)); apply in_map, Hs).
    apply in_map_iff in H as ((n & v) & X & H). cbn in X. subst n. eauto. }
  destruct VA as [values Hv].
  assert (MF : map fst values = a_regions a).
  { destruct values as [|[r0 v0] vs].
    - destruct (after_inv uf sp h _ _ Inv_empty) as (ver & I & _). unfold data_store in O.
      pose proof (load_inv uf sp disk (data_years (a_start a) (a_end a) (a_dt a)) (a_regions a) (a_variables a) _ _ I) as A.
      destruct (load_variables _ _ _ _ _ _ (after uf sp h empty_caches)) as [c1 x1]. cbn [snd] in O. destruct A as [_ A]. rewrite A in O.
      clear - O Hr Hv. exfalso. revert out O Hv. induction (a_variables a) as [|[n s] l IH]; intros out O Hv; cbn in O; [injection O as <-; destruct Hv|].
      apply bind_ok in O as (t & _ & O). apply bind_ok in O as (vs & O1 & O). apply bind_ok in O as (l' & O2 & O). injection O as <-.
      destruct Hv as [E|E]; [|eapply IH; eauto]. injection E as -> ->. apply pure_values_spec in O1 as [O1 _]. destruct (a_regions a); [destruct Hr|discriminate O1].
    - apply (C14_store_holds_file_data_pf uf sp disk h a out name s _ r0 v0 ND O Hs Hv). left. reflexivity. }
  assert (HV : exists v, In (r, v) values).
  { rewrite <- MF in Hr. apply in_map_iff in Hr as ((r' & v) & X & H). cbn in X. subst r'. eauto. }
  destruct HV as [v HV].
  destruct (C14_store_holds_file_data_pf uf sp disk h a out name s values r v ND O Hs Hv HV) as (_ & t & x & _ & F & C).
  apply convert_inv in C as (raw & u & k & ext & f & C1 & C2 & C3 & C4 & C5 & _ & C6).
  exists t, x, raw, u, k. split; [exact F|]. split; [exact C1|]. split; [exact C2|]. split; [exact C3|].
  intros LE step j Hstep Hj Y. unfold interp_data.
  assert (NO : NoDup (map fst out)).
  { destruct (after_inv uf sp h _ _ Inv_empty) as (ver & I & _). unfold data_store in O.
    pose proof (load_inv uf sp disk (data_years (a_start a) (a_end a) (a_dt a)) (a_regions a) (a_variables a) _ _ I) as A.
    destruct (load_variables _ _ _ _ _ _ (after uf sp h empty_caches)) as [c1 x1]. cbn [snd] in O. destruct A as [_ A]. rewrite A in O.
    destruct (pure_load_spec _ _ _ _ _ _ _ O) as [E _]. rewrite E. exact ND. }
  rewrite (assoc_in out name values NO Hv). cbn [bind].
  assert (NV : NoDup (map fst values)) by (rewrite MF; exact NR). rewrite (assoc_in values r v NV HV). cbn [bind].
  destruct (C12_model_years_are_data_years_pf (a_start a) (a_end a) (a_dt a) step v D SE Hstep) as [N1 N2].
  { rewrite C6, map_length. reflexivity. }
  rewrite N2. f_equal.
  assert (LT : (step < List.length (data_years (a_start a) (a_end a) (a_dt a)))%nat).
  { destruct (Nat.lt_ge_cases step (List.length (data_years (a_start a) (a_end a) (a_dt a)))) as [K|K]; [exact K|]. exfalso.
    destruct (C11_grid_covers_horizon_pf (a_start a) (a_end a) (a_dt a) (proj1 D) SE) as (tf & E & _ & _ & B & _). rewrite E in Hstep. apply in_seq in Hstep.
    destruct (arange_length (a_start a) (a_end a + 50) (a_dt a)) as [_ B2]; [lra|lra|]. fold (data_years (a_start a) (a_end a) (a_dt a)) in B2.
    apply le_INR in K. assert (INR step <= INR tf) by (apply le_INR; lia). unfold year_at in B. nra. }
  rewrite C6. rewrite nth_indep with (d' := f 0) by (rewrite map_length; exact LT). rewrite map_nth, N1, <- Y.
  destruct (C13_data_unchanged_pf _ _ _ _ C4) as [P1 P2]. rewrite map_length in P1, P2.
  assert (LR : List.length raw = List.length (years x)) by (rewrite (map_result_length _ _ _ C1); exact LE).
  pose proof (SP _ _ _ C5) as Q. rewrite app_length, P2, LR in Q. specialize (Q eq_refl j ltac:(lia)).
  rewrite app_nth1 in Q by exact Hj. rewrite Q. rewrite <- (firstn_skipn (List.length raw) ext), P1, app_nth1 by (rewrite map_length; lia).
  rewrite nth_indep with (d' := k * 0) by (rewrite map_length; lia). apply map_nth.
Qed.
