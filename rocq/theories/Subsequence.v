(** Bounded sequences have converging subsequences (several at a time). *)
From Coq Require Import Reals List Lra Lia ConstructiveEpsilon.
From Coquelicot Require Import Coquelicot.
Import ListNotations.
Open Scope R_scope.
Set Bullet Behavior "Strict Subproofs".

Definition bounded (f : nat -> R) : Prop := exists M, forall k, Rabs (f k) <= M.
Definition increasing_idx (phi : nat -> nat) : Prop := forall k, (phi k < phi (S k))%nat.

Lemma idx_mono phi : increasing_idx phi -> forall k j, (k < j)%nat -> (phi k < phi j)%nat.
Proof. intros H k j L. induction L; [apply H|]. specialize (H m). lia. Qed.
Lemma lim_subseq (f : nat -> R) phi : increasing_idx phi -> ex_finite_lim_seq f -> ex_finite_lim_seq (fun k => f (phi k)).
Proof. intros H [l L]. exists l. apply (is_lim_seq_subseq f l phi); [apply eventually_subseq, H|exact L]. Qed.

Lemma bw_one f : bounded f -> exists phi, increasing_idx phi /\ ex_finite_lim_seq (fun k => f (phi k)).
Proof.
  intros [M B]. assert (ME : forall k, - M <= f k <= M) by (intros k; specialize (B k); apply Rcomplements.Rabs_le_between in B; exact B).
  destruct (ex_LimSup_seq f) as [l HL].
  assert (FL : exists x, l = Finite x).
  { destruct l as [x| |]; [eauto| |].
    - destruct (HL (M + 1) 0%nat) as (n & _ & X). specialize (ME n). lra.
    - destruct (HL (- M - 1)) as [N X]. specialize (X N (le_n _)). specialize (ME N). lra. }
  destruct FL as [x ->]. cbn in HL.
  assert (NX : forall m N, exists n, (N < n)%nat /\ Rabs (f n - x) < / (INR m + 1)).
  { intros m N. assert (P : 0 < / (INR m + 1)) by (apply Rinv_0_lt_compat; pose proof (pos_INR m); lra).
    destruct (HL (mkposreal _ P)) as [A [N1 C]]. cbn in A, C. destruct (A (S N + N1)%nat) as (n & L & X). exists n. split; [lia|].
    specialize (C n ltac:(lia)). apply Rabs_def1; lra. }
  set (nxt := fun m N => proj1_sig (constructive_indefinite_ground_description_nat (fun n => (N < n)%nat /\ Rabs (f n - x) < / (INR m + 1))
     (fun n => match Compare_dec.lt_dec N n, Rlt_dec (Rabs (f n - x)) (/ (INR m + 1)) with
        | left a, left b => left (conj a b) | right a, _ => right (fun h => a (proj1 h)) | _, right b => right (fun h => b (proj2 h)) end) (NX m N))).
  assert (NS : forall m N, (N < nxt m N)%nat /\ Rabs (f (nxt m N) - x) < / (INR m + 1)).
  { intros m N. unfold nxt. match goal with |- context [proj1_sig ?z] => destruct z as [n H] end. exact H. }
  exists (fix phi (k : nat) : nat := match k with O => nxt 0%nat 0%nat | S j => nxt k (phi j) end). split.
  - intros k. apply NS.
  - exists x. apply is_lim_seq_spec. intros eps. destruct (archimed_cor1 eps (cond_pos eps)) as (N & I & P).
    exists N. intros n L. apply Rlt_trans with (/ (INR n + 1)); [destruct n; apply NS|].
    apply Rle_lt_trans with (/ INR N); [|exact I]. apply Rinv_le_contravar; [apply lt_0_INR, P|].
    apply le_INR in L. lra.
Qed.

Lemma bw_list (L : list (nat -> R)) : (forall f, In f L -> bounded f) ->
  exists phi, increasing_idx phi /\ forall f, In f L -> ex_finite_lim_seq (fun k => f (phi k)).
Proof.
  induction L as [|f L IH]; intros B.
  - exists (fun k => k). split; [intros k; lia|intros f []].
  - destruct IH as (phi & I & C); [intros g G; apply B; right; exact G|].
    destruct (bw_one (fun k => f (phi k))) as (psi & J & D).
    { destruct (B f (or_introl eq_refl)) as [M H]. exists M. intros k. apply H. }
    exists (fun k => phi (psi k)). split.
    + intros k. apply idx_mono; [exact I|apply J].
    + intros g [<-|G]; [exact D|]. apply (lim_subseq (fun k => g (phi k)) psi J (C g G)).
Qed.
