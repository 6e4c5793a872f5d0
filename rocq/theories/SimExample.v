(** Non-vacuity of C59: the relative abatement of a feasible point, saved and imposed in simulation mode. *)
From Verif Require Import PyBase NestedDict Config ConfigSpec TimeGrid DataStore DataStoreLemmas RegionalParams Instantiate ModelFacts ModelSpec Build BuildLemmas
  SimMode Export ExportLemmas SimData SimDataLemmas Example BundledExample.
From Coq Require Import QArith Qreals Reals Lra Lia.
Import ListNotations.
Set Bullet Behavior "Strict Subproofs".
Open Scope string_scope.
Open Scope R_scope.

Definition nearest (x : R) : Z := (up (x - 1/2))%Z.
Definition four_digits (x : R) : Q := (nearest (10000 * x) # 10000)%Q.
Lemma nearest_half x : Rabs (IZR (nearest x) - x) <= 1/2.
Proof. unfold nearest. destruct (archimed (x - 1/2)). apply Rabs_le. lra. Qed.
Lemma four_digits_close a : Rabs a < 1000 -> Rabs (Q2R (four_digits a) - a) <= 1/2000.
Proof.
  intros _. unfold four_digits, Q2R. cbn [Qnum Qden]. pose proof (nearest_half (10000 * a)) as H. apply rabs_inv in H. apply Rabs_le.
  set (z := IZR (nearest (10000 * a))) in *. assert (E : z * / 10000 - a = (z - 10000 * a) / 10000) by field. rewrite E. lra.
Qed.
Definition sim_params (imposed : pydict) : pyval :=
  VDict [ (KStr "simulation", VDict [ (KStr "simulationmode", VBool true); (KStr "constraint_variables", VDict imposed); (KStr "deactivated_constraints", VList []) ]) ].

(** The hypotheses of C59_saved_file_accepted and C59_saved_run_reproduced hold together. *)
Example C59_ex trapz dm tr tn we ob unit_of extra n : tr <> globalcostpool ->
  let p := ex true trapz dm tr tn noregime we ob no_policy in
  exists v disk s active, feasible p v /\ sim_of disk curve (sim_params [(KStr "relative_abatement", VStr "run.csv")]) = Ok (Some s) /\
    disk "run.csv" = Ok (saved_table p unit_of nearest four_digits v) /\
    (exists m, create_instance p extra n m (Some s) = Ok active) /\ solution_of p active v.
Proof.
  intros HT p. destruct (ex_default_solution trapz dm tr tn we ob HT) as [v F]. fold p in F.
  set (disk := fun _ : string => Ok (saved_table p unit_of nearest four_digits v)). set (params := sim_params _).
  assert (YD : two_decimals p).
  { intros t M. unfold model_step in M. cbn [tf p ex] in M. unfold year. cbn [beginyear dt p ex]. split.
    - apply le_INR in M. rewrite (INR_IZR_INZ 20) in M. cbn in M. pose proof (pos_INR t). lra.
    - exists (202000 + Z.of_nat t * 500)%Z. rewrite plus_IZR, mult_IZR, <- INR_IZR_INZ. lra. }
  assert (DT : 5/10 <= dt p) by (cbn; lra).
  assert (ND : NoDup (regions p)) by (cbn; repeat constructor; cbn; intuition discriminate).
  assert (L : lookup params ["simulation"; "constraint_variables"] = Some (VDict [(KStr "relative_abatement", VStr "run.csv")])) by reflexivity.
  assert (P : forall k w, In (k, w) [(KStr "relative_abatement", VStr "run.csv")] -> exists path, w = VStr path /\ disk path = Ok (saved_table p unit_of nearest four_digits v)).
  { intros k w [E|[]]. exists "run.csv". injection E as _ <-. split; reflexivity. }
  destruct (C59_saved_file_accepted_pf disk curve params extra n p v unit_of nearest four_digits [(KStr "relative_abatement", VStr "run.csv")] curve_defined nearest_half YD DT) as (s & m0 & S & M); [| | | |reflexivity|exact L|reflexivity|exact P| |].
  - cbn [tf p ex]. lia.
  - apply ex_ranges.
  - apply ex_data.
  - apply ex_choices; [exact HT|discriminate].
  - intros k [E|[]]. left. exists v_relative_abatement. split; [symmetry; exact E|reflexivity].
  - destruct (M m0 (le_n _)) as [active A]. exists v, disk, s, active. split; [exact F|]. split; [exact S|]. split; [reflexivity|]. split; [eauto|].
    apply (C59_saved_run_reproduced_pf disk curve params s extra n m0 p active v unit_of nearest four_digits _ curve_points nearest_half four_digits_close YD DT ND S A L P); [| |exact F].
    + intros x t r [E|[]] MT MR. cbn [fst] in E. assert (x = v_relative_abatement) as -> by (destruct x; try discriminate E; reflexivity).
      destruct F as [_ B]. destruct (B t MT) as (_ & _ & _ & _ & B'). destruct (B' r MR) as [B2 _]. apply Rabs_def1; lra.
    + intros g t [E|[]]. cbn [fst] in E. exfalso. destruct g; discriminate E.
Qed.
