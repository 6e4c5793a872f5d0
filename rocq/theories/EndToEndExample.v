(** Non-vacuity of C60 and C61: the configuration {"time": {"dt": 10}} (all other values the defaults). *)
From Verif Require Import PyBase NestedDict Parsers Config ConfigDefault NestedDictFacts ConfigSpec ConfigBridge ConfigLemmas TimeGrid TimeGridLemmas DataStore DataStoreLemmas
  RegionalParams Instantiate InstFacts InstantiateLemmas ConstructFacts BundledData BundledFacts BundledSigns Model Build Loading LoadingLemmas LoadingExist EndToEnd BundledExample.
From Coq Require Import QArith Qreals Permutation Reals Lra Lia.
Import ListNotations.
Open Scope string_scope.
Open Scope list_scope.
Open Scope R_scope.
Set Bullet Behavior "Strict Subproofs".

Definition user10 : pyval := VDict [(KStr "time", VDict [(KStr "dt", VFloat (FFin 10))])].
Definition raw10 : pyval := match check_params py_oracles config_default user10 with Ok st => fst st | Err _ => VNone end.
Definition tree10 : ptree := match check_params py_oracles config_default user10 with Ok st => snd st | Err _ => PNode [] end.
Definition params10 : pyval := match parse_param_values raw10 with Ok v => v | Err _ => VNone end.
Lemma distinct10 : distinct_keys user10.
Proof. cbn. repeat split; repeat (constructor; try (intros [])). Qed.
Lemma accepted10 : accepted py_oracles user10 raw10 params10 tree10.
Proof.
  split; [exact distinct10|]. split.
  - unfold raw10, tree10. assert (H : match check_params py_oracles config_default user10 with Ok _ => true | Err _ => false end = true) by (vm_compute; reflexivity).
    destruct (check_params py_oracles config_default user10) as [[a b]|]; [reflexivity|discriminate].
  - unfold params10. assert (H : match parse_param_values raw10 with Ok _ => true | Err _ => false end = true) by (vm_compute; reflexivity).
    destruct (parse_param_values raw10); [reflexivity|discriminate].
Qed.
Lemma quantities10 : plain_quantities raw10.
Proof.
  intros p node v P T L. pose proof (param_at_leaves _ _ _ P []) as I. cbn [app] in I.
  assert (H : forallb (fun l => match entry (snd l) "type" with
    | Some (VStr t) => if String.eqb t "quantity" then match dict_get raw10 (fst l) with Some (VStr s) => negb (has_brace s) | Some v => negb (is_dict v) | None => true end else true
    | _ => true end) (leaves schema_leaf [] config_default) = true) by (vm_compute; reflexivity).
  rewrite forallb_forall in H. specialize (H _ I). cbn [fst snd] in H. unfold has_type in T. rewrite T in H. change (String.eqb "quantity" "quantity") with true in H. cbv iota in H.
  rewrite <- lookup_dict_get, L in H. destruct v; try (split; [destruct (is_dict _); [discriminate|reflexivity]|intros ? E; discriminate E]).
  split; [reflexivity|]. intros s' E. injection E as <-. apply has_brace_false. destruct (has_brace s); [discriminate|reflexivity].
Qed.
Fixpoint reals (v : pyval) : bool :=
  match v with
  | VFloat (FFin _) => true
  | VFloat _ => false
  | VDict d => (fix go (d : list (key * pyval)) := match d with [] => true | (_, x) :: r => (reals x && go r)%bool end) d
  | _ => true
  end.
Lemma reals_ok path : forall v f, reals v = true -> lookup v path = Some (VFloat f) -> exists q, f = FFin q.
Proof.
  induction path as [|k path IH]; intros v f R L; cbn [lookup] in L.
  - injection L as ->. destruct f; try discriminate R. eauto.
  - destruct v as [| | | | | |d]; try discriminate. destruct (dget d (KStr k)) as [x|] eqn:X; [|discriminate]. apply (IH x f); [|exact L].
    clear - X R. induction d as [|[k' y] d IH]; [discriminate|]. cbn [reals] in R. apply andb_prop in R as [R1 R2]. cbn [dget] in X.
    destruct (key_eqb k' (KStr k)); [injection X as <-; exact R1|apply IH; [exact R2|exact X]].
Qed.
Lemma real10 : real_numbers params10.
Proof. intros path f. apply reals_ok. vm_compute. reflexivity. Qed.
Lemma custom10 : forall name, ~ customised params10 name.
Proof.
  intros name (x & E). assert (D : lookup params10 ["simulation"; "custom_mapping"] = Some (VDict [])) by (vm_compute; reflexivity).
  change ["simulation"; "custom_mapping"; name] with (["simulation"; "custom_mapping"] ++ [name])%list in E. rewrite lookup_app, D in E. discriminate E.
Qed.
Definition regions10 : list (key * pyval) := match lookup params10 ["regions"] with Some (VDict d) => d | _ => [] end.
Lemma lookup10 : lookup params10 ["regions"] = Some (VDict regions10).
Proof. vm_compute. reflexivity. Qed.
Lemma names10 : forall k x, In (k, x) regions10 -> exists r, k = KStr r /\ In r image_regions.
Proof.
  assert (H : forallb (fun kx => match fst kx with KStr r => existsb (String.eqb r) image_regions | _ => false end) regions10 = true) by (vm_compute; reflexivity).
  intros k x I. rewrite forallb_forall in H. specialize (H _ I). cbn [fst] in H. destruct k as [r|z]; [|discriminate H]. apply existsb_exists in H as (r' & R1 & R2).
  apply String.eqb_eq in R2. subst r'. exists r. split; [reflexivity|exact R1].
Qed.
Lemma own10 : no_own_values regions10.
Proof.
  assert (H : forallb (fun kx => match snd kx with VNone | VDict [] => true | _ => false end) regions10 = true) by (vm_compute; reflexivity).
  intros k x I. rewrite forallb_forall in H. specialize (H _ I). cbn [snd] in H. destruct x as [| | | | | |[|]]; try discriminate H; (split; reflexivity).
Qed.
Lemma usable10 : usable_configuration py_oracles params10 (Q2R 2020) (Q2R 2150) 10.
Proof.
  constructor.
  - intros X. vm_compute in X. discriminate X.
  - intros X. vm_compute in X. discriminate X.
  - intros X _. exists 1. split; [|lra]. exists (VFloat (FFin 1)). split; [vm_compute; reflexivity|cbn [number]; f_equal; unfold Q2R; cbn; lra].
  - intros _. unfold Q2R. cbn. lra.
  - intros (v & q & L & _ & X & Z). vm_compute in L. injection L as <-. vm_compute in X. injection X as <-. unfold Q2R in Z. cbn in Z. lra.
  - intros (v & L & X). vm_compute in L. injection L as <-. cbn [number] in X. apply Ok_inj in X. unfold Q2R in X. cbn in X. lra.
  - intros X. vm_compute in X. discriminate X.
Qed.
(** The model of this configuration is built. *)
Example C61_ex extra n : exists inst p comps, construct py_oracles bundled (fun l => l) unit_one curve empty_caches user10 = Ok inst /\ loads inst p /\ build extra n p = Ok comps.
Proof.
  destruct (C61_whole_decades_pf py_oracles (fun l => l) unit_one curve [] user10 raw10 params10 tree10 regions10 2020%Q 2150%Q accepted10) as (inst & H & PE & (p & L) & K).
  - intros q Hq. cbn [In] in Hq. repeat (destruct Hq as [<-|Hq]; [reflexivity|]). destruct Hq.
  - exact quantities10.
  - exact real10.
  - exact custom10.
  - exact lookup10.
  - vm_compute. discriminate.
  - exact own10.
  - exact names10.
  - eexists. split; vm_compute; reflexivity.
  - eexists. split; vm_compute; reflexivity.
  - discriminate.
  - discriminate.
  - discriminate.
  - intros x (v & LV & NV). vm_compute in LV. injection LV as <-. cbn [number] in NV. apply Ok_inj in NV. subst x. unfold Q2R. cbn. lra.
  - exists 202%Z, 1%Z, 10%Q. split; [reflexivity|]. split; [|reflexivity]. eexists. split; vm_compute; reflexivity.
  - left. exists "SSP2". split; [vm_compute; reflexivity|cbn; auto].
  - exact py_prints.
  - intros unit q X. discriminate X.
  - intros l. apply Permutation_refl.
  - intros v to from _. exists 1. reflexivity.
  - intros v to from k _ E. apply Ok_inj in E. subst. lra.
  - exact curve_defined.
  - exact curve_points.
  - intros disk a [].
  - specialize (K p extra n L). assert (D : dt p = 10).
    { destruct (grid_loaded _ _ _ _ _ _ _ _ _ H ltac:(rewrite PE; exact custom10) L) as (_ & G2 & _).
      pose proof (C60_configuration_reaches_model_pf _ _ _ _ _ _ _ _ _ distinct10 H ltac:(rewrite PE; exact custom10) L) as CF. rewrite PE in CF.
      destruct (cf_dt _ _ _ CF) as (v & V & N). vm_compute in V. injection V as <-. cbn [number] in N. apply Ok_inj in N. rewrite N. unfold Q2R. cbn. lra. }
    rewrite D in K. destruct (proj2 K usable10) as (comps & B). exists inst, p, comps. auto.
Qed.
