(** The time grid and the reading of time series on it:
    mimosa/concrete_model/instantiate_params.py 61-67, 99-119 and
    mimosa/common/data/datastore.py 51-55, 106, 116-118, mimosa/common/data/utils.py.
    Simplification: exact reals instead of floats. *)
From Coq Require Export Reals List Lra Lia ZArith.
From Verif Require Import PyBase.
Import ListNotations.
Open Scope R_scope.

(** np.ceil, and python's int() on a float (truncation towards zero); [up x] is the integer in (x, x+1]. *)
Definition ceil (x : R) : Z := (1 - up (- x))%Z.
Definition trunc (x : R) : Z := if Rle_dec 0 x then (up x - 1)%Z else ceil x.

(** instantiate_params.py 62-65 *)
Definition num_years (t_start t_end dt : R) : Z := (ceil ((t_end - t_start) / dt) + 1)%Z.
(** instantiate_params.py 66 *)
Definition year_at (t_start dt : R) (t : nat) : R := t_start + INR t * dt.
(** instantiate_params.py 117: range(num_years); python's range of a negative number is empty *)
Definition model_steps (t_start t_end dt : R) : list nat := seq 0 (Z.to_nat (num_years t_start t_end dt)).
(** instantiate_params.py 67, 118 *)
Definition year2100 (t_start dt : R) : Z := trunc ((2100 - t_start) / dt).

(** np.arange(a, b, d) for d > 0: ceil((b - a)/d) values a + i d *)
Definition arange (a b d : R) : list R := map (year_at a d) (seq 0 (Z.to_nat (ceil ((b - a) / d)))).
(** datastore.py 51-55 *)
Definition data_years (t_start t_end dt : R) : list R := arange t_start (t_end + 50) dt.

(** np.interp(x, xp, fp) for increasing xp (numpy/core/src/multiarray/compiled_base.c): the end values
    outside, linear inside *)
Fixpoint interp_from (x x0 y0 : R) (l : list (R * R)) : R :=
  match l with
  | [] => y0
  | (x1, y1) :: r =>
      if Rlt_dec x x1 then (y1 - y0) / (x1 - x0) * (x - x0) + y0
      else interp_from x x1 y1 r
  end.
Definition np_interp (x : R) (xp fp : list R) : result R :=
  match combine xp fp with
  | [] => Err ValueError
  | (x0, y0) :: r => if Rlt_dec x x0 then Ok y0 else Ok (interp_from x x0 y0 r)
  end.

(** utils.py 14-54 (stabilising_years has its default 50; [became_negative] is always False).
    [extrapolate_from]: the loop 30-51. *)
Definition growth (change_rate t_prev : R) : R :=
  let c := change_rate - change_rate * (t_prev - 2100) / 50 in
  if Rlt_dec 0 change_rate then Rmax 0 c else Rmin 0 c.
Fixpoint extrapolate_from (change_rate t_prev val_prev : R) (extra_years : list R) : list R :=
  match extra_years with
  | [] => []
  | t :: r => let v := val_prev + growth change_rate t_prev * (t - t_prev) in v :: extrapolate_from change_rate t v r
  end.
(** input_values[-1] and [-2]: IndexError with fewer than two values *)
Definition extrapolate (input_values years extra_years : list R) : result (list R) :=
  match rev input_values, rev years with
  | v1 :: v0 :: _, y1 :: y0 :: _ =>
      Ok (input_values ++ extrapolate_from ((v1 - v0) / (y1 - y0)) y1 v1 extra_years)%list
  | _, _ => Err IndexError
  end.
(** datastore.py 106: np.arange(2110, 2260, 10) *)
Definition extra_years : list R := [2110; 2120; 2130; 2140; 2150; 2160; 2170; 2180; 2190; 2200; 2210; 2220; 2230; 2240; 2250].
