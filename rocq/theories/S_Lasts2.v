(** Specification vocabulary for swing-tank systems that never run out (C76). *)
From Verif Require Import Prelude M_StratifiedTank M_Building M_Heater M_SimRun M_Step M_Engine S_Engine S_EngineRun S_Lasts.
Open Scope Q_scope.

(** Degrees by which [k] kBTU per hour over [iv] minutes warm or cool [tv] gallons. *)
Definition warms (k tv : Q) (iv : Z) : Q := k * 1000 * qz iv / 60 / (tv * rho_cp).

(** The swing tank of [tv] gallons by itself, always fed with storage-temperature water: [temp n] and
    [on n] are its temperature and whether its element is on when step [n] begins, [d n] the demand at the supply
    temperature, [mains n] the temperature of the mains, [draw n] the gallons that go through the tank.  The loop
    takes [loss] and the element gives [cap] kBTU per hour; the element starts below the supply
    temperature and stops 8 degrees above it. *)
Record fed_hot (supply storage tv loss cap : Q) (iv : Z) (total : Z) (d mains temp : nat -> Q) (on : nat -> bool) (draw : nat -> Q) : Prop := {
  fh_start : temp 0%nat == supply + 8;
  fh_off : on 0%nat = false;
  fh_draw : forall n, (Z.of_nat n * iv < total)%Z -> draw n * (temp n - mains n) == d n * (supply - mains n);
  fh_next : forall n, (Z.of_nat n * iv < total)%Z -> exists left_,
    left_ == temp n + qmin (draw n) tv * (storage - temp n) / tv - warms loss tv iv /\
    (on (S n) = true <-> left_ < (if on n then supply + 8 else supply)) /\
    temp (S n) == left_ + (if on (S n) then warms cap tv iv else 0) }.

(** The second tank holds [tv] gallons and its heater gives [cap] kBTU per hour when it runs. *)
Definition second_plant (s : esys) (tv cap : Q) : Prop :=
  exists h, second_tank s = Some (tv, h) /\ forall oat top, wh_capacity h (Some oat) top None = Ok (Some cap).
