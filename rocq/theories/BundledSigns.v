(** C58: the sign of the bundled baseline data, in the file and after its extrapolation to 2250. *)
From Verif Require Import PyBase NestedDict Parsers Config ConfigDefault ConfigSpec ConfigBridge TimeGrid TimeGridLemmas DataStore DataStoreLemmas
  RegionalParams Instantiate InstFacts InstantiateLemmas ConstructFacts BundledData BundledFacts.
From Coq Require Import QArith Qreals Permutation Reals Lra Lia.
Import ListNotations.
Open Scope string_scope.
Open Scope list_scope.
Open Scope R_scope.

(** *** Extrapolation in rational numbers *)
Definition growthQ (c t : Q) : Q := Qred (let g := c - c * (t - 2100) / 50 in
  if Qle_bool c 0 then (if Qle_bool 0 g then 0 else g) else (if Qle_bool g 0 then 0 else g))%Q.
Fixpoint extrapolateQ (c t v : Q) (l : list Q) : list Q :=
  match l with [] => [] | y :: r => let w := Qred (v + growthQ c t * (y - t))%Q in w :: extrapolateQ c y w r end.
Definition extra : list Q := map inject_Z [2110; 2120; 2130; 2140; 2150; 2160; 2170; 2180; 2190; 2200; 2210; 2220; 2230; 2240; 2250]%Z.
Definition extended (vs : list Q) : list Q :=
  match rev vs with v1 :: v0 :: _ => vs ++ extrapolateQ ((v1 - v0) / 10) 2100 v1 extra | _ => vs end.

Lemma Q2R_Qred q : Q2R (Qred q) = Q2R q.
Proof. apply Qeq_eqR, Qred_correct. Qed.
Lemma Q2R_Z z : Q2R (inject_Z z) = IZR z.
Proof. unfold Q2R, inject_Z. cbn. field. Qed.
Lemma Qle_bool_R a b : Qle_bool a b = if Rle_dec (Q2R a) (Q2R b) then true else false.
Proof.
  destruct (Rle_dec _ _) as [H|H]; [apply Qle_bool_iff, Rle_Qle, H|]. destruct (Qle_bool a b) eqn:E; [|reflexivity].
  exfalso. apply H, Qle_Rle, Qle_bool_iff, E.
Qed.
Lemma growth_Q c t : growth (Q2R c) (Q2R t) = Q2R (growthQ c t).
Proof.
  unfold growth, growthQ. rewrite Q2R_Qred. cbv zeta. set (g := (c - c * (t - 2100) / 50)%Q).
  assert (G : Q2R c - Q2R c * (Q2R t - 2100) / 50 = Q2R g).
  { unfold g. rewrite Q2R_minus, Q2R_div, Q2R_mult, Q2R_minus by discriminate.
    replace (Q2R 2100) with 2100 by (unfold Q2R; cbn; lra). replace (Q2R 50) with 50 by (unfold Q2R; cbn; lra). reflexivity. }
  rewrite G, !Qle_bool_R. replace (Q2R 0) with 0 by (unfold Q2R; cbn; lra).
  assert (Z : Q2R 0 = 0) by (unfold Q2R; cbn; lra).
  destruct (Rlt_dec 0 (Q2R c)), (Rle_dec (Q2R c) 0); try lra; unfold Rmax, Rmin.
  - destruct (Rle_dec 0 (Q2R g)), (Rle_dec (Q2R g) 0); rewrite ?Z; lra.
  - destruct (Rle_dec 0 (Q2R g)); rewrite ?Z; lra.
Qed.
Lemma extrapolate_Q l : forall c t v, extrapolate_from (Q2R c) (Q2R t) (Q2R v) (map Q2R l) = map Q2R (extrapolateQ c t v l).
Proof.
  induction l as [|y l IH]; intros c t v; [reflexivity|]. cbn [map extrapolate_from extrapolateQ]. cbv zeta.
  assert (W : Q2R v + growth (Q2R c) (Q2R t) * (Q2R y - Q2R t) = Q2R (Qred (v + growthQ c t * (y - t)))).
  { rewrite Q2R_Qred, Q2R_plus, Q2R_mult, Q2R_minus, growth_Q. reflexivity. }
  rewrite W. f_equal. apply IH.
Qed.
Lemma growth_scale k c t : 0 < k -> growth (k * c) t = k * growth c t.
Proof.
  intros K. unfold growth. replace (k * c - k * c * (t - 2100) / 50) with (k * (c - c * (t - 2100) / 50)) by field.
  set (g := c - c * (t - 2100) / 50).
  assert (S : 0 < k * c <-> 0 < c) by (split; intros H; [destruct (Rlt_dec 0 c); [auto|exfalso; assert (k * c <= 0) by nra; lra]|nra]).
  destruct (Rlt_dec 0 (k * c)), (Rlt_dec 0 c); try tauto; unfold Rmax, Rmin.
  - destruct (Rle_dec 0 (k * g)), (Rle_dec 0 g); nra.
  - destruct (Rle_dec 0 (k * g)), (Rle_dec 0 g); nra.
Qed.
Lemma extrapolate_scale k l : 0 < k -> forall c t v, extrapolate_from (k * c) t (k * v) l = map (Rmult k) (extrapolate_from c t v l).
Proof.
  intros K. induction l as [|y l IH]; intros c t v; [reflexivity|]. cbn [extrapolate_from map]. cbv zeta. rewrite growth_scale by exact K.
  replace (k * v + k * growth c t * (y - t)) with (k * (v + growth c t * (y - t))) by ring. f_equal. apply IH.
Qed.
Lemma extra_eq : map Q2R extra = extra_years.
Proof. unfold extra, extra_years, inject_Z, Q2R. cbn [map Qnum Qden]. repeat (f_equal; try lra). Qed.
Definition decade_list : list R := [2010; 2020; 2030; 2040; 2050; 2060; 2070; 2080; 2090; 2100].
Lemma extend_eq k vs : 0 < k -> (2 <= List.length vs)%nat ->
  extrapolate (map (Rmult k) (map Q2R vs)) decade_list extra_years = Ok (map (fun q => k * Q2R q) (extended vs)).
Proof.
  intros K L. unfold extrapolate, extended. rewrite <- !map_rev. rewrite map_map.
  pose proof (rev_length vs) as RL. destruct (rev vs) as [|v1 [|v0 m]]; cbn [List.length] in RL; [lia|lia|].
  cbn [map rev decade_list app]. f_equal. rewrite map_app. f_equal; [rewrite map_map; reflexivity|].
  replace ((k * Q2R v1 - k * Q2R v0) / (2100 - 2090)) with (k * ((Q2R v1 - Q2R v0) / 10)) by field.
  rewrite extrapolate_scale by exact K.
  replace ((Q2R v1 - Q2R v0) / 10) with (Q2R ((v1 - v0) / 10)) by (rewrite Q2R_div, Q2R_minus by discriminate; replace (Q2R 10) with 10 by (unfold Q2R; cbn; lra); reflexivity).
  rewrite <- extra_eq.
  replace 2100 with (Q2R 2100) by (unfold Q2R; cbn; lra). rewrite extrapolate_Q, map_map. reflexivity.
Qed.

(** *** Signs *)
(** The regions whose extrapolated baseline emissions become negative, and the first such decade. *)
Definition negative_from : list (string * string * Z) :=
  [("SSP1", "BRA", 2110); ("SSP4", "BRA", 2130); ("SSP1", "OCE", 2120); ("SSP1", "RCAM", 2130); ("SSP1", "RUS", 2120); ("SSP1", "SAF", 2130)]%Z%string.
Definition negative_at (ssp region : string) (y : Z) : bool :=
  existsb (fun x => String.eqb (fst (fst x)) ssp && String.eqb (snd (fst x)) region && Z.leb (snd x) y)%bool negative_from.
Definition decade (j : nat) : Z := (2010 + 10 * Z.of_nat j)%Z.
Fixpoint signs_ok (ssp region : string) (emissions : bool) (j : nat) (l : list Q) : bool :=
  match l with
  | [] => true
  | q :: r => ((if (emissions && negative_at ssp region (decade j))%bool then Qle_bool q 0 && negb (Qle_bool 0 q) else negb (Qle_bool q 0)) && signs_ok ssp region emissions (S j) r)%bool
  end.
Lemma signs_checked : forallb (fun ssp => forallb (fun region => forallb (fun vu =>
    match select_check ("IMAGE"%string, scenario_of ssp, region, fst (fst vu)) with
    | Some (ys, vs, u) => (Nat.eqb (List.length (extended vs)) 25 && signs_ok ssp region (String.eqb (fst (fst vu)) "Emissions|CO2") 0 (extended vs))%bool
    | None => false end) data_variables) image_regions) ssps = true.
Proof. vm_compute. reflexivity. Qed.

Lemma signs_nth ssp region e : forall l k j, signs_ok ssp region e k l = true -> (j < List.length l)%nat ->
  (if (e && negative_at ssp region (decade (k + j)))%bool then Q2R (nth j l 0%Q) < 0 else 0 < Q2R (nth j l 0%Q)).
Proof.
  induction l as [|q l IH]; intros k j S L; [cbn in L; lia|]. cbn [signs_ok] in S. apply andb_prop in S as [S1 S2].
  assert (Z : Q2R 0 = 0) by (unfold Q2R; cbn; lra).
  destruct j as [|j]; [|cbn [nth]; replace (k + S j)%nat with (S k + j)%nat by lia; apply IH; [exact S2|cbn in L; lia]].
  rewrite Nat.add_0_r. cbn [nth]. destruct (e && _)%bool.
  - apply andb_prop in S1 as [_ S1]. rewrite Qle_bool_R, Z in S1. destruct (Rle_dec 0 (Q2R q)); [discriminate|lra].
  - rewrite Qle_bool_R, Z in S1. destruct (Rle_dec (Q2R q) 0); [discriminate|lra].
Qed.
Lemma decades_nth j : (j < 25)%nat -> nth j (decade_list ++ extra_years)%list 0 = IZR (decade j).
Proof.
  intros H. unfold decade_list, extra_years. cbn [app].
  do 25 (destruct j as [|j]; [cbn [nth]; reflexivity|]). lia.
Qed.
Lemma assoc_some {A} k (l : list (string * A)) v : assoc k l = Ok v -> In (k, v) l.
Proof.
  unfold assoc. destruct (find _ l) as [[k' v']|] eqn:F; [|discriminate]. intros E. apply Ok_inj in E. cbn in E. subst v'.
  apply find_some in F as [F1 F2]. cbn in F2. apply String.eqb_eq in F2. subst k'. exact F1.
Qed.

(** Unit conversions of the bundled quantities are multiplications by positive numbers. *)
Definition positive_units (uf : string -> string -> result R) : Prop :=
  forall v to from k, In (v, to, from) data_variables -> uf from to = Ok k -> 0 < k.

Lemma bundled_file : bundled "inputdata/data/data_IMAGE_SSP.csv" = Ok image_ssp.
Proof. reflexivity. Qed.

Lemma bundled_values : forall o mo uf sp h user inst ssp,
  distinct_keys user -> default_inputs user -> (forall disk a, In (disk, a) h -> disk = bundled) ->
  through_points sp -> positive_units uf ->
  construct o bundled mo uf sp (after uf sp h empty_caches) user = Ok inst ->
  lookup (i_params inst) ["SSP"] = Some (VStr ssp) -> a_start (i_args inst) <= a_end (i_args inst) ->
  forall t region j, In t (model_steps (a_start (i_args inst)) (a_end (i_args inst)) (a_dt (i_args inst))) ->
    In region (i_regions inst) -> In region image_regions -> (j < 25)%nat ->
    year_at (a_start (i_args inst)) (a_dt (i_args inst)) t = IZR (decade j) ->
  forall name var v to from, In (name, var, v, to, from)
      [("baseline_GDP", "GDP", "GDP|PPP", "currency_unit", "billion US$2005/yr"); ("population", "population", "Population", "population_unit", "million");
       ("baseline_emissions", "emissions", "Emissions|CO2", "emissionsrate_unit", "Mt CO2/yr")]%string ->
    ~ customised (i_params inst) name -> exists l x ys vs k, assoc name (i_data inst) = Ok (ByTimeAndRegion l) /\ In ((t, region), x) l /\
      In ssp ssps /\ select_check ("IMAGE"%string, scenario_of ssp, region, v) = Some (ys, vs, from) /\ uf from to = Ok k /\ 0 < k /\
      List.length (extended vs) = 25%nat /\ x = k * Q2R (nth j (extended vs) 0%Q).
Proof.
  intros o mo uf sp h user inst ssp DK DI HH TP PU C LS SE t region j Ht Hr Hi Hj Y.
  destruct (construct_inv _ _ _ _ _ _ _ _ C) as (raw & rs & ch & decls & start & dt & H1 & H2 & _ & _ & _ & _ & _ & H8 & H9 & H10 & H11 & _).
  assert (A : accepted o user raw (i_params inst) (i_tree inst)) by (repeat split; assumption).
  destruct (ssp_value _ _ _ _ _ A) as (s & S1 & S2 & S3). rewrite LS in S1. injection S1 as <-.
  assert (NB : no_brace ssp) by (clear - S3; repeat (destruct S3 as [<-|S3]; [apply has_brace_false; reflexivity|]); destruct S3).
  pose proof (final_variables _ _ _ _ _ _ A DI S2 NB) as FV.
  destruct (bounded_number _ _ _ _ _ ["time"; "dt"] _ _ A ltac:(vm_compute; reflexivity)) as (dv & DL & DB).
  assert (AR : a_variables (i_args inst) = bundled_sources (scenario_of ssp) /\ 0 < a_dt (i_args inst) <= 20).
  { clear - H8 FV DL DB. unfold store_args_of in H8. apply bind_ok in H8 as (v1 & _ & H8). apply bind_ok in H8 as (s1 & _ & H8).
    apply bind_ok in H8 as (v2 & _ & H8). apply bind_ok in H8 as (e1 & _ & H8). apply config_lookup in DL. rewrite DL in H8. cbn [bind] in H8.
    apply bind_ok in H8 as (d1 & D1 & H8). apply config_lookup in FV. rewrite FV in H8. cbn [bind] in H8. apply bind_ok in H8 as (its & V0 & H8). apply bind_ok in H8 as (vs & V1 & H8).
    apply Ok_inj in H8. rewrite H8. cbn [a_variables a_dt]. split; [vm_compute in V0; apply Ok_inj in V0; subst its; cbn in V1; apply Ok_inj in V1; first [exact V1|symmetry; exact V1]|].
    destruct DB as [->|(q & Q1 & Q2 & Q3)]; [discriminate D1|]. rewrite (number_year _ _ Q1) in D1. apply Ok_inj in D1. subst d1.
    apply Qle_Rle in Q2, Q3. unfold Q2R in Q2 at 1, Q3 at 2. cbn in Q2, Q3. lra. }
  destruct AR as [AV AD].
  intros name var v to from I NC.
    assert (I' : In (name, var) [("population", "population"); ("baseline_GDP", "GDP"); ("baseline_emissions", "emissions")]%string)
      by (cbn [In] in I |- *; destruct I as [E|[E|[E|[]]]]; injection E as <- <- <- <- <-; auto).
    destruct (C10_data_values_pf _ _ _ _ _ _ _ _ C _ _ I' NC) as (l & L1 & L2 & L3). destruct (L2 _ _ Ht Hr) as (x & X1). pose proof (L3 _ _ _ X1) as X2.
    assert (IV : In (var, {| s_variable := v; s_unit := to; s_scenario := scenario_of ssp; s_model := "IMAGE"; s_file := "inputdata/data/data_IMAGE_SSP.csv" |}) (a_variables (i_args inst))).
    { rewrite AV. unfold bundled_sources. cbn [In] in I |- *. destruct I as [E|[E|[E|[]]]]; injection E as <- <- <- <- <-; auto. }
    assert (ID : In (v, to, from) data_variables) by (cbn [In] in I |- *; unfold data_variables; cbn [In]; destruct I as [E|[E|[E|[]]]]; injection E as <- <- <- <- <-; auto).
    unfold interp_data in X2. apply bind_ok in X2 as (values & X2 & X3). apply bind_ok in X3 as (w & X3 & X4).
    apply assoc_some in X2, X3.
    assert (ND : NoDup (map fst (a_variables (i_args inst)))) by (rewrite AV; apply nodup_str_ok; reflexivity).
    destruct (C14_store_holds_file_data_pf uf sp bundled h _ _ _ _ _ _ _ ND H9 IV X2 X3) as (_ & tb & x0 & TB & F & CV).
    assert (TE : tb = image_ssp).
    { cbn [s_file] in TB. destruct TB as [TB|(d & b & B1 & TB)]; [|rewrite (HH _ _ B1) in TB]; rewrite bundled_file in TB; apply Ok_inj in TB; first [exact TB|symmetry; exact TB]. }
    subst tb. apply convert_inv in CV as (rw & u & k & ext & f & C1 & C2 & C3 & C4 & C5 & _ & C6). cbn [s_unit] in C3.
    pose proof data_checked as K. rewrite forallb_forall in K. specialize (K _ S3). rewrite forallb_forall in K. specialize (K _ Hi).
    rewrite forallb_forall in K. specialize (K _ ID). cbn [fst snd] in K.
    pose proof signs_checked as G. rewrite forallb_forall in G. specialize (G _ S3). rewrite forallb_forall in G. specialize (G _ Hi).
    rewrite forallb_forall in G. specialize (G _ ID). cbn [fst snd] in G.
    destruct (select_check _) as [[[ys vs] u']|] eqn:SC; [|discriminate]. rewrite !Bool.andb_true_iff in K. destruct K as [[K1 K2] K3].
    apply Nat.eqb_eq in K2. apply String.eqb_eq in K3. subst u'. apply all2b_decades in K1.
    apply andb_prop in G as [G1 G2]. apply Nat.eqb_eq in G1.
    destruct (select_check_ok _ _ _ _ SC) as (x1 & Z1 & Z2 & Z3 & Z4). unfold in_file in F. cbn [s_model s_scenario s_variable] in F.
    rewrite Z1 in F. apply Ok_inj in F. subst x1. rewrite Z3 in C1. apply Ok_inj in C1. subst rw. rewrite Z4 in C2. injection C2 as <-.
    assert (KP : 0 < k) by (eapply PU; eauto).
    rewrite Z2, K1 in C4, C5. fold decade_list in C4, C5. rewrite extend_eq in C4 by (auto; lia). apply Ok_inj in C4. subst ext.
    destruct (C12_model_years_are_data_years_pf _ _ _ t w AD SE Ht) as [N1 N2]; [rewrite C6, map_length; reflexivity|].
    rewrite N2 in X4. apply Ok_inj in X4. subst x.
    assert (NT : (t < List.length (data_years (a_start (i_args inst)) (a_end (i_args inst)) (a_dt (i_args inst))))%nat).
    { destruct (Nat.lt_ge_cases t (List.length (data_years (a_start (i_args inst)) (a_end (i_args inst)) (a_dt (i_args inst))))) as [?|GE]; [assumption|].
      exfalso. rewrite (nth_overflow _ _ GE) in N1. rewrite Y in N1. unfold decade in N1. assert (0 < IZR (2010 + 10 * Z.of_nat j)) by (apply IZR_lt; lia). lra. }
    exists l, (nth t w 0), ys, vs, k. split; [exact L1|]. split; [exact X1|]. split; [exact S3|]. split; [reflexivity|]. split; [exact C3|]. split; [exact KP|]. split; [exact G1|].
    rewrite C6. rewrite (nth_indep _ 0 (f 0)) by (rewrite map_length; exact NT). rewrite map_nth, N1, Y, <- (decades_nth j Hj).
    rewrite (TP _ _ _ C5); [|rewrite map_length, G1; reflexivity|unfold decade_list, extra_years; cbn; lia].
    rewrite (nth_indep _ 0 ((fun q => k * Q2R q) 0%Q)) by (rewrite map_length, G1; exact Hj). rewrite (map_nth (fun q => k * Q2R q)).
    reflexivity.
Qed.
Lemma C58_bundled_signs_pf : forall o mo uf sp h user inst ssp,
  distinct_keys user -> default_inputs user -> (forall disk a, In (disk, a) h -> disk = bundled) ->
  through_points sp -> positive_units uf ->
  construct o bundled mo uf sp (after uf sp h empty_caches) user = Ok inst ->
  lookup (i_params inst) ["SSP"] = Some (VStr ssp) -> a_start (i_args inst) <= a_end (i_args inst) ->
  forall t region j, In t (model_steps (a_start (i_args inst)) (a_end (i_args inst)) (a_dt (i_args inst))) ->
    In region (i_regions inst) -> In region image_regions -> (j < 25)%nat ->
    year_at (a_start (i_args inst)) (a_dt (i_args inst)) t = IZR (decade j) ->
  (forall name, In name ["baseline_GDP"; "population"] -> ~ customised (i_params inst) name ->
     exists l x, assoc name (i_data inst) = Ok (ByTimeAndRegion l) /\ In ((t, region), x) l /\ 0 < x) /\
  (~ customised (i_params inst) "baseline_emissions" ->
     exists l x, assoc "baseline_emissions" (i_data inst) = Ok (ByTimeAndRegion l) /\ In ((t, region), x) l /\
       if negative_at ssp region (decade j) then x < 0 else 0 < x).
Proof.
  intros o mo uf sp h user inst ssp DK DI HH TP PU C LS SE t region j Ht Hr Hi Hj Y.
  assert (RES : forall name var v to from, In (name, var, v, to, from)
      [("baseline_GDP", "GDP", "GDP|PPP", "currency_unit", "billion US$2005/yr"); ("population", "population", "Population", "population_unit", "million");
       ("baseline_emissions", "emissions", "Emissions|CO2", "emissionsrate_unit", "Mt CO2/yr")]%string ->
    ~ customised (i_params inst) name ->
    exists l x, assoc name (i_data inst) = Ok (ByTimeAndRegion l) /\ In ((t, region), x) l /\
      if (String.eqb v "Emissions|CO2" && negative_at ssp region (decade j))%bool then x < 0 else 0 < x).
  { intros name var v to from I NC.
    destruct (bundled_values o mo uf sp h user inst ssp DK DI HH TP PU C LS SE t region j Ht Hr Hi Hj Y name var v to from I NC) as (l & x & ys & vs & k & L1 & X1 & S3 & SC & _ & KP & G1 & ->).
    exists l, (k * Q2R (nth j (extended vs) 0%Q)). split; [exact L1|]. split; [exact X1|].
    assert (ID : In (v, to, from) data_variables) by (cbn [In] in I |- *; unfold data_variables; cbn [In]; destruct I as [E|[E|[E|[]]]]; injection E as <- <- <- <- <-; auto).
    pose proof signs_checked as G. rewrite forallb_forall in G. specialize (G _ S3). rewrite forallb_forall in G. specialize (G _ Hi).
    rewrite forallb_forall in G. specialize (G _ ID). cbn [fst snd] in G. rewrite SC in G. apply andb_prop in G as [_ G2].
    pose proof (signs_nth ssp region _ _ 0%nat j G2 ltac:(lia)) as SG. cbn [Nat.add] in SG. destruct (_ && _)%bool; nra. }
  split.
  - intros name I NC. cbn [In] in I. destruct I as [<-|[<-|[]]].
    + apply (RES _ "GDP" "GDP|PPP" "currency_unit" "billion US$2005/yr")%string; [cbn; auto|exact NC].
    + apply (RES _ "population" "Population" "population_unit" "million")%string; [cbn; auto|exact NC].
  - intros NC. apply (RES _ "emissions" "Emissions|CO2" "emissionsrate_unit" "Mt CO2/yr")%string; [cbn; auto|exact NC].
Qed.
