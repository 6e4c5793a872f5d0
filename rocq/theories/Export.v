(** mimosa/export/save.py and pyomo_utils.py 222-252: the table written by MIMOSA.save. *)
From Verif Require Export Names.

(** Values of the Params indexed by time and region, in declaration order: abstract_model.py 68-85;
    emissions.py 62-64, 75-81; notrade.py 28-33; notransfer.py 22-23; effortsharing.py 216-223;
    cobbdouglas.py 122.  (Every other Param has dimension at most one.) *)
Definition time_region_params (p : pars) : list (string * (nat -> region -> R)) :=
  [ ("population", population p); ("baseline_GDP", baseline_GDP p); ("baseline_emissions", baseline_emissions p);
    ("cumulative_baseline_emissions", cumulative_baseline_emissions p);
    ("baseline_carbon_intensity", baseline_carbon_intensity p) ]
  ++ match trade p with
     | notrade => [ ("import_export_emission_reduction_balance", fun _ _ => 0);
                    ("import_export_mitigation_cost_balance", fun _ _ => 0) ]
     | _ => [] end
  ++ match transfer p with
     | notransfer => [ ("financial_transfer", fun _ _ => 0); ("rel_financial_transfer", fun _ _ => 0) ]
     | globaldamagepool => [] end
  ++ [ ("percapconv_share_pop", percapconv_share_pop p); ("percapconv_share", percapconv_share p);
       ("TFP", TFP p) ].

(** One line of the table: columns Variable, Region, Unit and one value per model year. *)
Record row := { r_variable : string; r_region : string; r_unit : string; r_values : list R }.

Section Export.
  Variable p : pars.
  (** pyomo_utils.py 259-265 (get_unit): the unit string of a component; pint's formatting is not modelled *)
  Variable unit_of : string -> string.
  Variable v : point.

  (** [m.t] *)
  Definition steps : list nat := seq 0 (S (tf p)).
  (** save.py 45-58 *)
  Definition regional_rows (name : string) (f : nat -> region -> R) : list row :=
    map (fun r => {| r_variable := name; r_region := r; r_unit := unit_of name; r_values := map (fun t => f t r) steps |})
        (regions p).
  Definition var_to_row (w : var) : list row :=
    match w with
    | Rv x => regional_rows (rname x) (rval v x)
    | Gv g => [ {| r_variable := gname g; r_region := "Global"; r_unit := unit_of (gname g); r_values := map (gval v g) steps |} ]
    end.
  (** save.py 23-28, pyomo_utils.py 222-246: all variables, then all time- and region-dependent parameters
      (no name starts with "_") *)
  Definition rows : list row :=
    flat_map var_to_row (variables p)
    ++ flat_map (fun q => regional_rows (fst q) (snd q)) (time_region_params p).
End Export.

(** save.py 61-62: "{:g}".format(year), for 1000 <= year < 10000: six significant digits are two decimals;
    trailing zeros (and the point) are dropped.  [rnd] is python's rounding to an integer of 100 * year
    (to nearest; which of two equally near ones does not matter here). *)
Definition digit (n : nat) : string :=
  match n with
  | 0%nat => "0" | 1%nat => "1" | 2%nat => "2" | 3%nat => "3" | 4%nat => "4"
  | 5%nat => "5" | 6%nat => "6" | 7%nat => "7" | 8%nat => "8" | _ => "9"
  end.
Definition format_hundredths (n : nat) : string :=
  let f := (n mod 100)%nat in
  str_nat (n / 100) ++
  (if Nat.eqb f 0 then ""
   else "." ++ digit (f / 10) ++ (if Nat.eqb (f mod 10) 0 then "" else digit (f mod 10)))%string.
Definition year_label (rnd : R -> Z) (y : R) : string := format_hundredths (Z.to_nat (rnd (100 * y))).
(** save.py 61-64: the columns of the data frame *)
Definition year_labels (rnd : R -> Z) (p : pars) : list string := map (fun t => year_label rnd (year p t)) (steps p).
Definition columns (rnd : R -> Z) (p : pars) : list string :=
  (["Variable"; "Region"; "Unit"] ++ year_labels rnd p)%list%string.
