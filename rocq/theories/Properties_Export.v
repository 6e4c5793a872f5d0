(** Property theorems (generated by tools/gen_props.py from the proved lemmas; statements only). *)
From Verif Require Import Model ModelSpec Build SimMode Export ExportLemmas.

(** ** Theorems *)
Theorem C48_table_complete : forall p unit_of v,
  (forall g, declared_g p g = true -> exists row, In row (rows p unit_of v) /\
     r_variable row = gname g /\ r_region row = "Global"%string /\ r_unit row = unit_of (gname g) /\ r_values row = map (gval v g) (seq 0 (S (tf p)))) /\
  (forall x r, declared_r p x = true -> In r (regions p) -> exists row, In row (rows p unit_of v) /\
     r_variable row = rname x /\ r_region row = r /\ r_unit row = unit_of (rname x) /\ r_values row = map (fun t => rval v x t r) (seq 0 (S (tf p)))) /\
  (forall name f r, In (name, f) (time_region_params p) -> In r (regions p) -> exists row, In row (rows p unit_of v) /\
     r_variable row = name /\ r_region row = r /\ r_unit row = unit_of name /\ r_values row = map (fun t => f t r) (seq 0 (S (tf p)))).
Proof. exact C48_table_complete_pf. Qed.
Print Assumptions C48_table_complete.

Theorem C48_table_rectangular : forall p unit_of v rnd row, In row (rows p unit_of v) ->
  List.length (r_values row) = S (tf p) /\ List.length (columns rnd p) = (3 + List.length (r_values row))%nat /\
  ((exists g, declared_g p g = true /\ r_variable row = gname g /\ r_region row = "Global"%string) \/
   (In (r_region row) (regions p) /\
    ((exists x, declared_r p x = true /\ r_variable row = rname x) \/ In (r_variable row) (map fst (time_region_params p))))).
Proof. exact C48_table_rectangular_pf. Qed.
Print Assumptions C48_table_rectangular.

(** No two rows describe the same variable and region. *)
Theorem C48_rows_distinct : forall p unit_of v, NoDup (regions p) ->
  NoDup (map (fun row => (r_variable row, r_region row)) (rows p unit_of v)).
Proof. exact C48_rows_distinct_pf. Qed.
Print Assumptions C48_rows_distinct.

(** Different model years have different column labels. *)
Theorem C48_year_labels_distinct : forall p rnd, (forall x, Rabs (IZR (rnd x) - x) <= 1/2) ->
  1000 <= beginyear p -> 5/10 <= dt p -> NoDup (year_labels rnd p).
Proof. exact C48_year_labels_distinct_pf. Qed.
Print Assumptions C48_year_labels_distinct.

(** The header line: three fixed names, then one label per model year, in order; whole years are written
    without decimals, half years with one. *)
Theorem C48_header : forall p rnd, (forall x, Rabs (IZR (rnd x) - x) <= 1/2) ->
  exists labels, columns rnd p = ("Variable" :: "Region" :: "Unit" :: labels)%string%list /\ List.length labels = S (tf p) /\
    forall t n, (t <= tf p)%nat -> 
      (year p t = INR n -> nth t labels ""%string = str_nat n) /\
      (year p t = INR n + 1/2 -> nth t labels ""%string = (str_nat n ++ ".5")%string).
Proof. exact C48_header_pf. Qed.
Print Assumptions C48_header.
