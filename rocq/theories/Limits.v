(** C67: limits of feasible plans. *)
From Coq Require Import Lra Lia.
From Coquelicot Require Import Coquelicot.
From Verif Require Import ModelFacts SoftFacts ModelSpec PowFacts Equations Equations2 Build VarFacts EconLemmas BuildFacts BuildLemmas DefinedFacts.
Open Scope R_scope.
Set Bullet Behavior "Strict Subproofs".

Section Limit.
  Variable u : nat -> point.
  (** The point whose values are the limits of the values of the sequence. *)
  Definition limit_point : point :=
    {| gval := fun g t => real (Lim_seq (fun k => gval (u k) g t));
       rval := fun x t r => real (Lim_seq (fun k => rval (u k) x t r)) |}.
  Notation w := limit_point.
  Definition lim (e : expr) : Prop := is_lim_seq (fun k => deno (u k) e) (deno w e).

  Lemma lim_g g t : ex_finite_lim_seq (fun k => gval (u k) g t) -> lim (EG g t).
  Proof. intros H. apply Lim_seq_correct' in H. exact H. Qed.
  Lemma lim_r x t r : ex_finite_lim_seq (fun k => rval (u k) x t r) -> lim (EV x t r).
  Proof. intros H. apply Lim_seq_correct' in H. exact H. Qed.
  Lemma lim_val_r x t r e : (forall k, rval (u k) x t r = deno (u k) e) -> lim e -> lim (EV x t r).
  Proof. intros H L. apply lim_r. exists (deno w e). apply is_lim_seq_ext with (2 := L). intros k. symmetry. apply H. Qed.
  Lemma lim_val_g g t e : (forall k, gval (u k) g t = deno (u k) e) -> lim e -> lim (EG g t).
  Proof. intros H L. apply lim_g. exists (deno w e). apply is_lim_seq_ext with (2 := L). intros k. symmetry. apply H. Qed.

  Lemma lim_pow a b : lim a -> lim b -> 0 < deno w a -> lim (EPow a b).
  Proof.
    unfold lim. cbn [deno]. intros A B P. rewrite pypow_pos by exact P. unfold Rpower.
    assert (EVT : Hierarchy.eventually (fun k => 0 < deno (u k) a)).
    { apply is_lim_seq_spec in A. destruct (A (mkposreal _ P)) as [N H]. exists N. intros n L. specialize (H n L). cbn in H. apply Rabs_def2 in H. lra. }
    apply is_lim_seq_ext_loc with (fun k => exp (deno (u k) b * ln (deno (u k) a))).
    - destruct EVT as [N H]. exists N. intros n L. rewrite pypow_pos by (apply H, L). reflexivity.
    - apply is_lim_seq_continuous; [apply derivable_continuous_pt, derivable_pt_exp|].
      apply is_lim_seq_mult'; [exact B|]. apply is_lim_seq_continuous; [|exact A].
      apply derivable_continuous_pt. exists (/ deno w a). apply derivable_pt_lim_ln, P.
  Qed.
  Lemma lim_pow0 a y : lim a -> 0 < y -> (forall k, 0 <= deno (u k) a) -> lim (EPow a (ENum y)).
  Proof.
    unfold lim. cbn [deno]. intros A Y P.
    assert (PW : 0 <= deno w a).
    { change (Rbar_le (Finite 0) (Finite (deno w a))). apply (is_lim_seq_le (fun _ => 0) (fun k => deno (u k) a)); [exact P|apply is_lim_seq_const|exact A]. }
    rewrite pypow_apow by assumption.
    apply is_lim_seq_ext with (fun k => apow (deno (u k) a) y).
    - intros k. rewrite pypow_apow by auto. reflexivity.
    - apply (filterlim_comp _ _ _ _ (fun a => apow a y) _ _ _ A). apply (apow_continuous y (deno w a) Y PW).
  Qed.

  Fixpoint nice (e : expr) : Prop :=
    match e with
    | ENum _ => True
    | EG _ _ | EV _ _ _ => lim e
    | EAdd a b | ESub a b | EMul a b | EDiv a b => nice a /\ nice b
    | ENeg a | EPowN a _ | EExp a | EAtan a => nice a
    | EPow a b => nice a /\ nice b /\ (0 < deno w a \/ exists y, b = ENum y /\ 0 < y /\ forall k, 0 <= deno (u k) a)
    end.
  Lemma nice_lim e : nice e -> defd w e -> lim e.
  Proof.
    induction e as [x|g t|x t r|a IHa b IHb|a IHa b IHb|a IHa b IHb|a IHa b IHb|a IHa|a IHa b IHb|a IHa n|a IHa|a IHa]; cbn [nice defd]; intros N D.
    - apply is_lim_seq_const.
    - exact N.
    - exact N.
    - destruct N, D. apply is_lim_seq_plus'; [apply IHa|apply IHb]; assumption.
    - destruct N, D. apply is_lim_seq_minus'; [apply IHa|apply IHb]; assumption.
    - destruct N, D. apply is_lim_seq_mult'; [apply IHa|apply IHb]; assumption.
    - destruct N, D as (D1 & D2 & D3). apply is_lim_seq_div'; [apply IHa|apply IHb|]; assumption.
    - specialize (IHa N D). unfold lim in *. cbn [deno]. apply is_lim_seq_opp in IHa. exact IHa.
    - destruct N as (N1 & N2 & N3), D as (D1 & D2 & _). destruct N3 as [P|(y & -> & Y & P)].
      + apply lim_pow; auto.
      + apply lim_pow0; auto.
    - specialize (IHa N D). unfold lim in *. cbn [deno]. induction n as [|n IH]; cbn [pow]; [apply is_lim_seq_const|].
      apply is_lim_seq_mult'; assumption.
    - specialize (IHa N D). unfold lim in *. cbn [deno]. apply is_lim_seq_continuous; [apply derivable_continuous_pt, derivable_pt_exp|exact IHa].
    - specialize (IHa N D). unfold lim in *. cbn [deno]. apply is_lim_seq_continuous; [apply derivable_continuous_pt, derivable_pt_atan|exact IHa].
  Qed.
  Lemma nice_esum f l : (forall r, In r l -> nice (f r)) -> nice (esum f l).
  Proof.
    unfold esum. assert (A : nice (ENum 0)) by exact I. revert A. generalize (ENum 0). induction l as [|r l IH]; intros e A H; [exact A|].
    cbn [fold_left]. apply IH; [|intros; apply H; right; assumption]. split; [exact A|apply H; left; reflexivity].
  Qed.
  Lemma nice_soft_min e s : nice e -> nice (soft_min e s).
  Proof. intros N. unfold soft_min, soft_switch. cbn [nice]. tauto. Qed.
  Lemma nice_soft_max e m s : nice e -> nice m -> nice (soft_max e m s).
  Proof. intros N M. unfold soft_max. cbn [nice]. split; [|exact M]. apply nice_soft_min. split; assumption. Qed.

  (** A constraint whose two sides converge and that every plan of the sequence satisfies holds in the limit. *)
  Definition nice_out (o : rule_out) : Prop := match o with Con a _ b => nice a /\ nice b | _ => True end.
  Lemma sat_limit o : (forall k, sat (u k) o) -> nice_out o -> all_defined w o -> sat w o.
  Proof.
    destruct o as [|a op b|e]; cbn [sat nice_out all_defined]; [auto| |intros H; destruct (H 0%nat)].
    intros H (NA & NB) (DA & DB). split; [exact DA|]. split; [exact DB|].
    pose proof (nice_lim a NA DA) as LA. pose proof (nice_lim b NB DB) as LB. unfold lim in *.
    assert (LE : forall (x y : nat -> R) (lx ly : R), (forall k, x k <= y k) -> is_lim_seq x lx -> is_lim_seq y ly -> lx <= ly).
    { intros x y lx ly I X Y. change (Rbar_le (Finite lx) (Finite ly)). exact (is_lim_seq_le x y lx ly I X Y). }
    destruct op.
    - apply Rle_antisym; eapply LE; [| exact LA | exact LB | | exact LB | exact LA]; intros k; destruct (H k) as (_ & _ & E); rewrite E; apply Rle_refl.
    - eapply LE; [|exact LA|exact LB]. intros k. apply H.
    - apply Rle_ge. eapply LE; [|exact LB|exact LA]. intros k. apply Rge_le, H.
  Qed.
  Lemma con_lim_r x t r e : (forall k, sat (u k) (EV x t r == e)%E) -> nice e -> defd w e -> lim (EV x t r).
  Proof. intros H N D. apply (lim_val_r x t r e); [intros k; apply (H k)|apply nice_lim; assumption]. Qed.
  Lemma con_lim_g g t e : (forall k, sat (u k) (EG g t == e)%E) -> nice e -> defd w e -> lim (EG g t).
  Proof. intros H N D. apply (lim_val_g g t e); [intros k; apply (H k)|apply nice_lim; assumption]. Qed.
End Limit.
