(** Specification vocabulary for the sizing-curve plots of an engine (C68). *)
From Verif Require Import Prelude M_StratifiedTank M_MixedTank M_EnergyTank M_Building M_Heater M_Sizing S_Sizing
  M_Step M_Swing M_MPRTP M_Engine M_EngineOut S_Engine S_EngineSize.
Open Scope Q_scope.

(** The figure draws the points [xs], [ys] and marks point [i]: it has a marker for every point, of
    which only the [i]-th is visible, and a slider that stands at [i] and whose position [k] shows the
    curve and the [k]-th marker only. *)
Record draws (g : figure) (xs ys : list Q) (i : Z) : Prop := {
  dr_x : fg_x g = xs; dr_y : fg_y g = ys; dr_same : length xs = length ys;
  dr_marks : length (fg_marks g) = length xs;
  dr_mark : forall k x y, nth_error xs k = Some x -> nth_error ys k = Some y ->
    exists v, nth_error (fg_marks g) k = Some (x, y, v) /\ (v = true <-> Z.of_nat k = i);
  dr_active : fg_active g = i;
  dr_steps : length (fg_steps g) = length xs;
  dr_step : forall k st, nth_error (fg_steps g) k = Some st ->
    exists l, st = true :: l /\ length l = length (fg_marks g) /\ forall j v, nth_error l j = Some v -> (v = true <-> j = k) }.

(** The point at index [i]. *)
Definition point_at (xs ys : list Q) (i : Z) (x y : Q) : Prop :=
  (0 <= i)%Z /\ nth_error xs (Z.to_nat i) = Some x /\ nth_error ys (Z.to_nat i) = Some y.

(** Further along the curve there is no less storage, and less capacity. *)
Definition more_storage_less_capacity (xs ys : list Q) : Prop := forall i j x y x' y', (i < j)%nat ->
  nth_error xs i = Some x -> nth_error ys i = Some y -> nth_error xs j = Some x' -> nth_error ys j = Some y' -> x <= x' /\ y' < y.

(** The same system, but perhaps for the mix fraction a swing system keeps between computations. *)
Definition same_but_mix (s s' : esys) : Prop :=
  match s with
  | ESwing w x => exists mix, s' = ESwing (sw_set_mix w mix) x
  | _ => s' = s
  end.

(** The building's daily shape can be restored from the library, if it now has an annual one. *)
Definition restorable (dt : data) (e : engine) : Prop :=
  bd_is_annual (en_building e) = true -> library_annual (da_lib dt) (en_building e).

(** A day of hot-water use: hourly shares that are not negative and make up at most the day. *)
Record daily_shape (b : building) : Prop := {
  ds_24 : length (bd_peak b) = 24%nat; ds_nonneg : forall x, In x (bd_peak b) -> 0 <= x;
  ds_one : qsum (bd_peak b) <= 1; ds_demand : 0 < bd_daily b }.

(** The run hours suffice for the heaters to lag behind the demand in some hour: it takes more than the
    share a heater makes in an hour, by more than the curve's margin of a thousandth. *)
Definition storage_needed (b : building) (run : Q) : Prop := exists x, In x (bd_peak b) /\ 1001 # 1000 < run * x.

(** The share of load-shift days is [k] percent, and one of those the curve shows. *)
Definition shown_percent (p : eparams) (k : Z) : Prop :=
  (25 <= k <= 100)%Z /\ ep_ls_percent p = qz k / 100 \/ k = 100%Z /\ 1 <= ep_ls_percent p.
