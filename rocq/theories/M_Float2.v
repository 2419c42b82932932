(** Model, in IEEE-754 binary64 arithmetic, of what load-shift sizing of a single-pass
    return-to-primary system does to its building's daily hot-water use. *)
From Coq Require Import ZArith SpecFloat.
From Verif Require Import Prelude M_Float.
Open Scope Z_scope.

(** Python [x + y], [x - y] and [x * y] on floats. *)
Definition f64_add (x y : spec_float) : spec_float := SFadd 53 1024 x y.
Definition f64_sub (x y : spec_float) : spec_float := SFsub 53 1024 x y.
Definition f64_mul (x y : spec_float) : spec_float := SFmul 53 1024 x y.

(** constants.py L2: the literal 8.353535 as a binary64 number. *)
Definition f64_rho_cp : spec_float := S754_finite false 4702622139153300 (-49).

(** RTPSystem.get_recirc_loss_kbtuh, RTPSystem.py L58-76. *)
Definition f64_recirc_loss (flow supply ret : spec_float) : res spec_float :=
  f64_div (f64_mul (f64_mul (f64_mul flow (f64_of_int 60)) f64_rho_cp) (f64_sub supply ret)) (f64_of_int 1000).

(** recirc_daily_supplyT_gal, SinglePassRTPSystem.py L250-255 and L306-311. *)
Definition f64_recirc_daily (flow supply ret inlet : spec_float) : res spec_float :=
  do loss <- f64_recirc_loss flow supply ret;
  do x <- f64_div (f64_mul loss (f64_of_int 1000)) (f64_mul f64_rho_cp (f64_sub supply inlet));
  Ok (f64_mul x (f64_of_int 24)).

(** [building.daily_dhw_use_supplyT_gal += r; try: ... finally: building... -= r],
    SinglePassRTPSystem.py L257-263 and L313-319: the daily use afterwards. *)
Definition f64_trip (daily r : spec_float) : spec_float := f64_sub (f64_add daily r) r.

(** DHWSystem.size, DHWSystem.py L355-366: with load shifting, _calc_required_capacity_ls_kbtuh (which
    calls _calc_gen_rate_ls_gph, L1424), _calc_gen_rate_ls_gph and _calc_running_volume_ls_supplyT_gal
    make three such round trips. *)
Definition f64_sized (daily r : spec_float) : spec_float := f64_trip (f64_trip (f64_trip daily r) r) r.
