(** Specification vocabulary for the heater properties C30-C34, written from the documentation
    of Controls.py, WaterHeater.py and PerformanceMap.py. *)
From Verif Require Import Prelude M_Heater.

(** ** Hysteresis (C30) *)

(** The controls that the schedule and the map put in force at an hour of the day. *)
Definition in_effect (h : heater) (hour : Z) (c : controls) : Prop :=
  (0 <= hour)%Z /\
  exists s d k, wh_schedule h = Some s /\ wh_map h = Some d /\
    nth_error s (Z.to_nat hour) = Some k /\ dict_get d k = Some c.

(** The tank asks for heat: the on-sensor reads below the on-trigger. *)
Definition calls_on (h : heater) (ev : tank_view * Z) : Prop :=
  exists c x, in_effect h (snd ev) c /\ fst ev (ct_on_sensor c) = Ok x /\ x < ct_on_trigger c.
(** The tank is satisfied: the off-sensor reads at or above the off-trigger. *)
Definition calls_off (h : heater) (ev : tank_view * Z) : Prop :=
  exists c x, in_effect h (snd ev) c /\ fst ev (ct_off_sensor c) = Ok x /\ ct_off_trigger c <= x.

(** A tank all of whose sensors read, hotter (or equal) the higher the sensor. *)
Definition layered (tk : tank_view) : Prop :=
  exists T : Q -> Q, (forall f, tk f = Ok (T f)) /\ (forall f g, f <= g -> T f <= T g).

(** Sensible controls: the off-sensor is not above the on-sensor, and the off-trigger is not
    below the on-trigger. *)
Definition ordered_controls (c : controls) : Prop :=
  ct_off_sensor c <= ct_on_sensor c /\ ct_on_trigger c <= ct_off_trigger c.

(** ** Performance maps (C32, C33) *)

(** Quadratic in the inlet temperature, as tabulated in one bracket. *)
Definition poly2 (c : list Q) (x : Q) : Q := nth 0 c 0 + nth 1 c 0 * x + nth 2 c 0 * x * x.
(** Rated input power [kW] (the table holds watts) and rated COP of one bracket. *)
Definition rated_kw (e : hp_entry) (x : Q) : Q := poly2 (he_pow e) x / 1000.
Definition rated_cop (e : hp_entry) (x : Q) : Q := poly2 (he_cop e) x.

(** A bracket with its three coefficients per curve. *)
Definition entry_ok (e : hp_entry) : Prop :=
  (3 <= length (he_pow e))%nat /\ (3 <= length (he_cop e))%nat.

(** A multi-bracket table: at least two brackets, temperatures strictly increasing. *)
Fixpoint increasing (l : list hp_entry) : Prop :=
  match l with
  | a :: (b :: _) as r => he_T a < he_T b /\ increasing r
  | _ => True
  end.
Definition table_ok (l : list hp_entry) : Prop :=
  (2 <= length l)%nat /\ increasing l /\ Forall entry_ok l.

(** The straight line through two points of two brackets. *)
Definition blend (a b : hp_entry) (ya yb oat : Q) : Q :=
  ya * ((he_T b - oat) / (he_T b - he_T a)) + yb * ((oat - he_T a) / (he_T b - he_T a)).

(** The same map deployed with another number of units. *)
Definition hp_with_units (m : hp_map) (n : Z) : hp_map :=
  mkHpMap (hp_perfmap m) n (hp_multipass m) (hp_nominal m) (hp_design_inlet m).
Definition pk_with_units (m : pk_map) (n : Z) : pk_map :=
  mkPkMap (pk_out_interp m) (pk_in_interp m) (pk_oats m) (pk_grid m) (pk_inlet_max m)
    (pk_out_high m) (pk_in_high m) (pk_out_low m) n (pk_two_input m) (pk_hx m)
    (pk_hx_increase m) (pk_nominal m) (pk_design_inlet m).

(** Equality of outcomes up to equality of rationals. *)
Definition res_eq (a b : res Q) : Prop :=
  match a, b with Ok x, Ok y => x == y | Err e, Err f => e = f | _, _ => False end.

(** [x] is an element of [l] nearest to [y]. *)
Definition nearest (l : list Q) (y x : Q) : Prop :=
  In x l /\ forall z, In z l -> Qabs (x - y) <= Qabs (z - y).

(** ** Polynomial maps with one bracket (C32) *)
Fixpoint npow (x : Q) (n : nat) : Q := match n with O => 1 | S k => x * npow x k end.

(** Powers of outdoor, outlet and inlet temperature of the eleven terms, in the order of the
    coefficients, and of outdoor and inlet temperature of the six terms of multi-pass maps. *)
Definition eleven_terms : list (nat * nat * nat) :=
  [(0, 0, 0); (1, 0, 0); (0, 1, 0); (0, 0, 1); (2, 0, 0); (0, 2, 0); (0, 0, 2); (1, 1, 0); (1, 0, 1); (0, 1, 1); (1, 1, 1)]%nat.
Definition six_terms : list (nat * nat * nat) :=
  [(0, 0, 0); (1, 0, 0); (0, 0, 1); (2, 0, 0); (0, 0, 2); (1, 0, 1)]%nat.
Definition poly_value (terms : list (nat * nat * nat)) (c : list Q) (oat out inl : Q) : Q :=
  qsum (map (fun ct => fst ct * npow oat (fst (fst (snd ct))) * npow out (snd (fst (snd ct))) * npow inl (snd (snd ct)))
            (combine c terms)).

(** The same table without its heat exchanger (C34). *)
Definition pk_without_hx (m : pk_map) : pk_map :=
  mkPkMap (pk_out_interp m) (pk_in_interp m) (pk_oats m) (pk_grid m) (pk_inlet_max m)
    (pk_out_high m) (pk_in_high m) (pk_out_low m) (pk_units m) (pk_two_input m) false
    (pk_hx_increase m) (pk_nominal m) (pk_design_inlet m).
