(** Model, in IEEE-754 binary64 arithmetic, of how a system's heating capacity and running volume are sized. *)
From Coq Require Import ZArith List SpecFloat.
From Verif Require Import Prelude M_Float M_Float2 M_Sizing.
Import ListNotations.
Open Scope Z_scope.

Definition f64_zero : spec_float := S754_zero false.

(** _calc_required_capacity, DHWSystem.py L836-862, given the design inlet temperature. *)
Definition f64_capacity (daily run supply inlet defrost : spec_float) : res spec_float :=
  do gen <- f64_div daily run;
  do x <- f64_div (f64_mul (f64_mul gen f64_rho_cp) (f64_sub supply inlet)) defrost;
  f64_div x (f64_of_int 1000).

(** _get_peak_indices, DHWSystem.py L54-64. *)
Definition f64_peaks (d : list spec_float) : list nat :=
  filter (fun i => SFleb f64_zero (nth (prev_hour (length d) i) d f64_zero) && SFltb (nth i d f64_zero) f64_zero)
         (seq 0 (length d)).

(** np.cumsum on a float array: each entry is the rounded sum of the one before and the next number. *)
Fixpoint f64_cumsum_from (acc : spec_float) (l : list spec_float) : list spec_float :=
  match l with [] => [] | x :: r => f64_add acc x :: f64_cumsum_from (f64_add acc x) r end.
Definition f64_cumsum (l : list spec_float) : list spec_float :=
  match l with [] => [] | x :: r => x :: f64_cumsum_from x r end.

(** [x[x < 0]] followed by [-np.min(..)]; [None] when there is no negative entry. *)
Definition f64_min (a b : spec_float) : spec_float := if SFltb b a then b else a.
Definition f64_worst (cum : list spec_float) : option spec_float :=
  match filter (fun x => SFltb x f64_zero) cum with
  | [] => None
  | x :: r => Some (SFopp (fold_left f64_min r x))
  end.

(** Python [max(a, b)] on floats. *)
Definition f64_max (a b : spec_float) : spec_float := if SFltb a b then b else a.

(** The loop of _calc_running_volume_supplyT_gal, DHWSystem.py L896-916, on the hourly difference. *)
Definition f64_running_of_diff (d : list spec_float) : spec_float :=
  let tiled := d ++ d in
  fold_left (fun v idx => match f64_worst (f64_cumsum (skipn idx tiled)) with
                          | None => v
                          | Some m => f64_max v m
                          end) (f64_peaks d) f64_zero.

(** _calc_running_volume_supplyT_gal, DHWSystem.py L864-916. *)
Definition f64_running (daily run : spec_float) (shape : list spec_float) : res spec_float :=
  do gen <- f64_div daily run;
  Ok (f64_running_of_diff (map (fun f => f64_sub gen (f64_mul daily f)) shape)).

(** _calc_storage_volume_storageT_gal, DHWSystem.py L918-948. *)
Definition f64_storage (running factor : spec_float) : res spec_float := f64_div running factor.
