(** Non-vacuity of C65: a solution of the small example, its table and its readings. *)
From Verif Require Import Model Build Export ExportLemmas SavedLemmas Example.
From Coq Require Import Lra.
Example C65_ex unit_of : exists v G V, feasible (ex true true COACCH emissiontrade globaldamagepool noregime welfare_loss_minimising utility no_policy) v /\
  reads_as (rows (ex true true COACCH emissiontrade globaldamagepool noregime welfare_loss_minimising utility no_policy) unit_of v) 
    (tf (ex true true COACCH emissiontrade globaldamagepool noregime welfare_loss_minimising utility no_policy)) G V /\
  ~ In "Global"%string (regions (ex true true COACCH emissiontrade globaldamagepool noregime welfare_loss_minimising utility no_policy)).
Proof.
  destruct (ex_default_solution true COACCH emissiontrade globaldamagepool welfare_loss_minimising utility ltac:(discriminate)) as [v F].
  destruct (C65_readable_pf (ex true true COACCH emissiontrade globaldamagepool noregime welfare_loss_minimising utility no_policy) unit_of v) as (G & V & R).
  - cbn. repeat constructor; cbn; intuition discriminate.
  - exists v, G, V. split; [exact F|]. split; [exact R|]. cbn. intuition discriminate.
Qed.
