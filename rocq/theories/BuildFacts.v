(** When does building the model succeed?  Names (C17) and evaluation of the rules (C18). *)
From Coq Require Import Lra Lia DecimalString DecimalNat Ascii.
From Verif Require Import ModelFacts SoftFacts ModelSpec PowFacts Build VarFacts EconLemmas.
Set Bullet Behavior "Strict Subproofs".

(** ** names *)
Definition is_digit (c : ascii) : bool :=
  (Nat.leb 48 (nat_of_ascii c) && Nat.leb (nat_of_ascii c) 57)%bool.
Definition alpha_name (s : string) : Prop := exists c s', s = String c s' /\ is_digit c = false.

Lemma str_nat_inj a b : str_nat a = str_nat b -> a = b.
Proof.
  unfold str_nat. intros H.
  assert (forall n, Nat.to_uint n <> Decimal.Nil) as NN.
  { intros n E. assert (K : Nat.of_uint (Nat.to_uint n) = Nat.of_uint Decimal.Nil) by (f_equal; exact E).
    rewrite Unsigned.of_to in K. cbn in K. subst n. cbn in E. discriminate. }
  apply Unsigned.to_uint_inj.
  pose proof (NilZero.usu _ (NN a)) as A. pose proof (NilZero.usu _ (NN b)) as B.
  rewrite H in A. rewrite A in B. injection B; auto.
Qed.
Lemma str_nat_digit n : ~ alpha_name (str_nat n).
Proof.
  intros [c [s' [E D]]]. unfold str_nat in E. destruct (Nat.to_uint n); cbn in E; injection E as <- _; discriminate.
Qed.

Definition named (cs : list (option string * pyomo_con)) : list string :=
  flat_map (fun nc => match fst nc with Some s => [s] | None => [] end) cs.
Definition have_ok (n : nat) (have : list string) : Prop :=
  forall s, In s have -> (exists a, alpha_name a /\ s = "constraint_" ++ a) \/ (exists k, (k < n)%nat /\ s = "constraint_" ++ str_nat k).

Lemma app_inj p a b : (p ++ a)%string = (p ++ b)%string -> a = b.
Proof. induction p; cbn; auto. intros H; injection H; auto. Qed.
Lemma existsb_false s l : existsb (String.eqb s) l = false <-> ~ In s l.
Proof.
  split.
  - intros H K. apply not_true_iff_false in H. apply H. apply existsb_exists. exists s. split; auto. apply String.eqb_refl.
  - intros H. apply not_true_iff_false. intros K. apply existsb_exists in K as [y [A B]]. apply String.eqb_eq in B. subst; auto.
Qed.

(** what [add_all] returns when it succeeds *)
Lemma add_all_sound extra cs : forall n have l, add_all extra n have cs = Ok l ->
  NoDup (map fst l) /\ (forall s, In s (map fst l) -> ~ In s have) /\
  Forall2 (fun c nm => snd c = snd nm /\ match fst nm with Some s => fst c = ("constraint_" ++ s)%string | None => True end) l cs.
Proof.
  induction cs as [|[nm c] cs IH]; intros n have l H; cbn [add_all] in H.
  - injection H as <-. repeat split; try constructor. intros s [].
  - destruct (existsb _ have) eqn:X; [discriminate|]. apply existsb_false in X.
    destruct (add_all extra _ _ cs) as [l'|] eqn:E; [|discriminate]. cbn [bind] in H. injection H as <-.
    apply IH in E as (A & B & C). cbn [map fst]. repeat split.
    + constructor; auto. intros K. apply (B _ K). left; auto.
    + intros s [<-|K]; auto. intros J. apply (B _ K). right; auto.
    + constructor; auto. cbn. split; auto. destruct nm; auto.
Qed.
Lemma add_all_complete extra cs : forall n have, have_ok n have -> NoDup (named cs) ->
  Forall alpha_name (named cs) -> (forall s, In s (named cs) -> ~ In ("constraint_" ++ s)%string have) ->
  exists l, add_all extra n have cs = Ok l.
Proof.
  induction cs as [|[nm c] cs IH]; intros n have Hh Hn Ha Hf; cbn [add_all]; [eauto|].
  set (s := component_name n nm).
  assert (Hs : ~ In s have).
  { unfold s, component_name. destruct nm as [a|].
    - apply Hf. left; auto.
    - intros K. destruct (Hh _ K) as [[a [A E]]|[k [L E]]]; apply app_inj in E.
      + subst a. apply (str_nat_digit n A).
      + apply str_nat_inj in E. lia. }
  rewrite (proj2 (existsb_false s have) Hs).
  assert (Q : exists l, add_all extra (n + 1 + extra c) (s :: have) cs = Ok l).
  { apply IH.
    - intros x [<-|K].
      + unfold s, component_name. destruct nm as [a|].
        * left. exists a. split; auto. cbn in Ha. inversion Ha; auto.
        * right. exists n. split; auto. lia.
      + destruct (Hh _ K) as [A|[k [L E]]]; auto. right. exists k. split; auto. lia.
    - cbn in Hn. destruct nm; auto. inversion Hn; auto.
    - cbn in Ha. destruct nm; auto. inversion Ha; auto.
    - intros a K [E|J].
      + unfold s, component_name in E. destruct nm as [b|].
        * apply app_inj in E. subst b. cbn in Hn. inversion Hn; auto.
        * apply app_inj in E. assert (A : alpha_name a).
          { apply (proj1 (Forall_forall _ _) Ha). cbn. auto. }
          subst a. apply (str_nat_digit n A).
      + apply (Hf a); auto. cbn. destruct nm; [right; auto|auto]. }
  destruct Q as [l Q]. rewrite Q. cbn. eauto.
Qed.
Lemma add_all_dup extra cs a c rest : forall n have,
  In a (named cs) \/ In ("constraint_" ++ a)%string have ->
  (exists l, add_all extra n have cs = Ok l) ->
  add_all extra n have (cs ++ (Some a, c) :: rest) = Err RuntimeError.
Proof.
  induction cs as [|[nm c'] cs IH]; intros n have H [l E].
  - destruct H as [[]|H]. cbn [app add_all]. cbn [component_name].
    destruct (existsb _ have) eqn:X; auto. apply existsb_false in X. contradiction.
  - cbn [app add_all] in *. destruct (existsb _ have) eqn:X; [discriminate|].
    destruct (add_all extra (n + 1 + extra c') _ cs) as [l'|] eqn:Q; [|discriminate].
    rewrite IH; auto.
    + destruct H as [H|H].
      * cbn in H. destruct nm as [b|]; auto. destruct H as [->|H]; auto. right. left. reflexivity.
      * right. right. auto.
    + eauto.
Qed.

Fixpoint nodupb (l : list string) : bool :=
  match l with [] => true | x :: r => negb (existsb (String.eqb x) r) && nodupb r end.
Lemma nodupb_ok l : nodupb l = true -> NoDup l.
Proof.
  induction l as [|x l IH]; cbn [nodupb]; intros H; constructor; apply andb_true_iff in H as [A B]; auto.
  apply negb_true_iff in A. apply existsb_false in A. auto.
Qed.
Definition alphab (s : string) : bool := match s with String c _ => negb (is_digit c) | _ => false end.
Lemma alphab_ok l : forallb alphab l = true -> Forall alpha_name l.
Proof.
  intros H. apply Forall_forall. intros s Hs. apply (proj1 (forallb_forall _ _) H) in Hs.
  destruct s as [|c s]; [discriminate|]. exists c, s. split; auto. apply negb_true_iff. exact Hs.
Qed.
Definition onames (n : option string) : list string := match n with Some s => [s] | None => [] end.
Definition cnames (c : constr) : list string :=
  match c with
  | GlobalC n _ | GlobalInitC n _ | RegionalC n _ | RegionalInitC n _ => onames n
  | RegionalSoftEqC n _ _ _ _ _ => [(n ++ "_upperbound")%string; (n ++ "_lowerbound")%string]
  end.
Lemma named_app a b : named (a ++ b)%list = (named a ++ named b)%list.
Proof. apply flat_map_app. Qed.
Lemma named_cnames l : named (flat_map to_pyomo l) = flat_map cnames l.
Proof.
  induction l as [|c l IH]; auto. cbn [flat_map]. rewrite named_app, IH. f_equal.
  destruct c as [[|]|[|]|[|]|[|]|]; reflexivity.
Qed.

(** names of the components, by modules *)
Definition name_list (d : damage_module) (tr : trade_module) (x : transfer_module) : list string := (
  ["baseline_emissions"; "regional_abatement"; "regional_emission_reduction"; "global_emissions";
   "global_emissions_init"; "cumulative_emissions"; "relative_cumulative_emissions"; "temperature";
   "temperature_target"; "carbon_budget"; "global_inertia"; "regional_inertia"; "global_min_level";
   "regional_min_level"; "non_increasing_emissions_after_2100"; "net_zero_after_2100"]
  ++ ["SLR_thermal"; "SLR_GSIC"; "SLR_GIS"; "total_SLR"]
  ++ match d with COACCH => ["damage_costs"; "damage_costs_non_slr"; "damage_costs_slr"]
     | nodamage => ["zero_damage_costs"] end
  ++ ["carbonprice"; "init_carbon_price"; "mitigation_costs"; "area_under_MAC"; "rel_mitigation_costs";
      "rel_mitigation_costs_non_negative"; "global_rel_mitigation_costs";
      "global_emission_reduction_per_cost_unit"; "global_cost_per_emission_reduction_unit"; "LBD"; "LOT"; "learning"]
  ++ match tr with
     | notrade => []
     | globalcostpool => ["mitigation_costs"; "sum_abatement_equals_sum_area_under_mac"; "paid_for_emission_reductions";
        "import_export_emission_reduction_balance"; "import_export_mitigation_cost_balance"]
     | emissiontrade => ["global_carbonprice"; "sum_mitigation_equals_sum_area_under_mac";
        "import_export_emission_reduction_balance"; "paid_for_emission_reductions"]
     end
  ++ match x with notransfer => []
     | globaldamagepool => ["zero_sum_of_yearly_financial_transfer"; "no_transfer_in_first_year";
        "received_financial_transfer_max_own_damages"; "financial_transfer_rel_to_gdp"] end
  ++ ["effort_sharing_regime_mitigation_costs_upperbound"; "effort_sharing_regime_mitigation_costs_lowerbound";
      "effort_sharing_regime_total_costs_upperbound"; "effort_sharing_regime_total_costs_lowerbound";
      "percapconv_rule_upperbound"; "percapconv_rule_lowerbound"]
  ++ ["GDP_gross"; "GDP_gross_init"; "GDP_net"; "investments"; "consumption"; "capital_stock"]
  ++ ["utility"; "yearly_welfare"] ++ ["NPV"])%list.
Lemma app_cong {A} (a b c d : list A) : a = b -> c = d -> (a ++ c)%list = (b ++ d)%list.
Proof. intros -> ->. reflexivity. Qed.
Lemma named_list p : named (pyomo_components p) = name_list (dmg_module p) (trade p) (transfer p).
Proof.
  unfold pyomo_components. rewrite named_cnames. unfold all_constraints, name_list. rewrite !flat_map_app.
  apply app_cong; [reflexivity|]. apply app_cong; [reflexivity|].
  apply app_cong; [unfold damage_constraints; destruct (dmg_module p); reflexivity|].
  apply app_cong; [reflexivity|].
  apply app_cong; [unfold trade_constraints; destruct (trade p); reflexivity|].
  apply app_cong; [unfold transfer_constraints; destruct (transfer p); reflexivity|].
  apply app_cong; [reflexivity|]. apply app_cong; [reflexivity|].
  apply app_cong; [unfold welfare_constraints; destruct (welfare p); reflexivity|]. reflexivity.
Qed.
Lemma names_ok p : trade p <> globalcostpool -> NoDup (named (pyomo_components p)) /\ Forall alpha_name (named (pyomo_components p)).
Proof.
  intros T. rewrite named_list.
  destruct (trade p); [|congruence|]; destruct (dmg_module p), (transfer p);
    (split; [apply nodupb_ok; vm_compute; reflexivity|apply alphab_ok; vm_compute; reflexivity]).
Qed.

(** ** evaluation of the rules *)
Definition dvok (e : expr) : Prop := negb (is_const e && Reqb (deno no_point e) 0) = true.
Lemma dvok_nz e : deno no_point e <> 0 -> dvok e.
Proof. intros H. unfold dvok. apply Reqb_false in H. rewrite H, andb_false_r. reflexivity. Qed.
Lemma dvok_var e : is_const e = false -> dvok e.
Proof. intros H. unfold dvok. rewrite H. reflexivity. Qed.
Definition dok (e : expr) : Prop := division_ok e = true.
Lemma dok_add a b : dok (EAdd a b) <-> dok a /\ dok b. Proof. apply andb_true_iff. Qed.
Lemma dok_sub a b : dok (ESub a b) <-> dok a /\ dok b. Proof. apply andb_true_iff. Qed.
Lemma dok_mul a b : dok (EMul a b) <-> dok a /\ dok b. Proof. apply andb_true_iff. Qed.
Lemma dok_pow a b : dok (EPow a b) <-> dok a /\ dok b. Proof. apply andb_true_iff. Qed.
Lemma dok_div a b : dok (EDiv a b) <-> (dok a /\ dok b) /\ dvok b.
Proof. unfold dok, dvok. cbn [division_ok]. rewrite !andb_true_iff. tauto. Qed.
Lemma dok_neg a : dok (ENeg a) <-> dok a. Proof. reflexivity. Qed.
Lemma dok_pown a n : dok (EPowN a n) <-> dok a. Proof. reflexivity. Qed.
Lemma dok_exp a : dok (EExp a) <-> dok a. Proof. reflexivity. Qed.
Lemma dok_atan a : dok (EAtan a) <-> dok a. Proof. reflexivity. Qed.
Lemma dok_num x : dok (ENum x). Proof. reflexivity. Qed.
Lemma dok_EG g t : dok (EG g t). Proof. reflexivity. Qed.
Lemma dok_EV x t r : dok (EV x t r). Proof. reflexivity. Qed.
Lemma dok_fold (f : region -> expr) l acc :
  dok (fold_left (fun a r => EAdd a (f r)) l acc) <-> dok acc /\ forall r, In r l -> dok (f r).
Proof.
  revert acc; induction l as [|r l IH]; intros acc; cbn [fold_left].
  - split; [intros H; split; [exact H|intros r []]|intros [H _]; exact H].
  - rewrite IH, dok_add. split.
    + intros [[A B] C]. split; auto. intros s [<-|]; auto.
    + intros [A B]. repeat split; auto. apply B; left; auto. intros; apply B; right; auto.
Qed.
Lemma dok_esum (f : region -> expr) l : dok (esum f l) <-> forall r, In r l -> dok (f r).
Proof. unfold esum. rewrite dok_fold. split; [tauto|]. intros; split; auto. reflexivity. Qed.
Lemma const_fold (f : region -> expr) l acc :
  is_const (fold_left (fun a r => EAdd a (f r)) l acc) = is_const acc && forallb (fun r => is_const (f r)) l.
Proof.
  revert acc; induction l as [|r l IH]; intros acc; cbn [fold_left forallb]; [rewrite andb_true_r; auto|].
  rewrite IH. cbn [is_const]. rewrite andb_assoc. reflexivity.
Qed.
Lemma const_esum f l : is_const (esum f l) = forallb (fun r => is_const (f r)) l.
Proof. unfold esum. rewrite const_fold. reflexivity. Qed.
Lemma const_esum_var f l : l <> [] -> (forall r, is_const (f r) = false) -> is_const (esum f l) = false.
Proof. intros N H. rewrite const_esum. destruct l as [|r l]; [congruence|]. cbn. rewrite H. reflexivity. Qed.
Lemma const_soft_min e s : is_const (soft_min e s) = is_const e.
Proof. unfold soft_min, soft_switch. cbn [is_const]. rewrite !andb_true_l, !andb_true_r, andb_diag. reflexivity. Qed.
Lemma const_soft_max e m s : is_const (soft_max e m s) = is_const m && is_const e.
Proof. unfold soft_max. cbn [is_const]. rewrite const_soft_min. cbn [is_const]. destruct (is_const m), (is_const e); reflexivity. Qed.
Lemma dok_soft_min e s : 0 < s -> (dok (soft_min e s) <-> dok e).
Proof.
  intros Hs. pose proof PI_RGT_0. assert (0 < scale_to_a s) by (unfold scale_to_a; apply Rdiv_lt_0_compat; lra).
  unfold soft_min, soft_switch. rewrite !dok_add, !dok_mul, !dok_add, !dok_div, dok_atan, dok_mul.
  assert (dvok (ENum PI)) by (apply dvok_nz; cbn; lra).
  assert (dvok (ENum (scale_to_a s * PI))) by (apply dvok_nz; cbn; assert (0 < scale_to_a s * PI) by (apply Rmult_lt_0_compat; auto); lra).
  pose proof (dok_num). intuition.
Qed.
Lemma dok_soft_max e m s : 0 < s -> (dok (soft_max e m s) <-> dok e /\ dok m).
Proof. intros Hs. unfold soft_max. rewrite dok_add, dok_neg, dok_soft_min, dok_sub by auto. tauto. Qed.

Definition cok (o : rule_out) : Prop := check_rule o = Ok tt.
Lemma cok_con a op b : cok (Con a op b) <-> dok a /\ dok b.
Proof. unfold cok, dok. cbn. destruct (division_ok a), (division_ok b); cbn; intuition discriminate. Qed.
Lemma cok_skip : cok Skip. Proof. reflexivity. Qed.
Lemma cok_raise x : ~ cok (Raise x). Proof. discriminate. Qed.

Lemma check_all_ok l : check_all l = Ok tt <-> forall o, In o l -> cok o.
Proof.
  induction l as [|o l IH]; cbn [check_all In]; [split; [intros _ o []|reflexivity]|]. unfold cok in *. destruct (check_rule o) as [[]|x] eqn:E; cbn [bind].
  - rewrite IH. split; [intros H o' [<-|H']; [exact E|exact (H o' H')]|intros H o' H'; exact (H o' (or_intror H'))].
  - split; [discriminate|]. intros H. rewrite <- E. apply H; auto.
Qed.
Lemma build_iff extra n p : (exists comps, build extra n p = Ok comps) <->
  (exists comps, create_abstract_model extra n p = Ok comps) /\ check_params_div p = Ok tt /\
  (forall c o, In c (all_constraints p) -> In o (outs p c) -> cok o).
Proof.
  unfold build. split.
  - intros [comps H]. destruct (create_abstract_model extra n p) as [l|] eqn:E; [|discriminate]. cbn [bind] in H.
    destruct (check_params_div p) as [[]|] eqn:D; [|discriminate]. cbn [bind] in H.
    destruct (check_all _) as [[]|] eqn:C in H; [|discriminate].
    split; [eauto|]. split; auto. pose proof (proj1 (check_all_ok _) C) as C'.
    intros c o Hc Ho. apply C'. unfold create_abstract_model in E. apply add_all_sound in E as (_ & _ & F).
    unfold outs in Ho. apply in_flat_map in Ho as [nc [Hnc Ho]].
    assert (K : In nc (pyomo_components p)) by (unfold pyomo_components; apply in_flat_map; eauto).
    clear - F K Ho. induction F as [|x y l l' [A B] F IH]; [destruct K|]. destruct K as [->|K].
    + cbn [flat_map]. apply in_or_app. left. rewrite A. auto.
    + cbn [flat_map]. apply in_or_app. right. auto.
  - intros ([l E] & D & C). rewrite E. cbn [bind]. rewrite D. cbn [bind].
    assert (K : check_all (flat_map (fun nc => outputs (tf p) (regions p) (snd nc)) l) = Ok tt).
    { apply check_all_ok. intros o Ho. apply in_flat_map in Ho as [nc [Hnc Ho]].
      unfold create_abstract_model in E. apply add_all_sound in E as (_ & _ & F).
      assert (exists nm, In nm (pyomo_components p) /\ snd nc = snd nm) as [nm [Hnm Enm]].
      { clear - F Hnc. induction F as [|x y l l' [A B] F IH]; [destruct Hnc|]. destruct Hnc as [->|K].
        - exists y. split; [left|]; auto.
        - destruct (IH K) as [z [P Q]]. exists z. split; [right|]; auto. }
      unfold pyomo_components in Hnm. apply in_flat_map in Hnm as [c [Hc Hnm]].
      apply (C c o Hc). unfold outs. apply in_flat_map. exists nm. rewrite <- Enm. auto. }
    rewrite K. cbn. eauto.
Qed.
