(** Specification vocabulary for the mixed tank. *)
From Verif Require Import Prelude M_StratifiedTank M_MixedTank.
Open Scope Q_scope.

(** Heat in the tank's water, in BTU relative to [ref] degrees. *)
Definition mx_heat_above (ref : Q) (t : mixed) : Q := mx_vol t * rho_cp * (mx_temp_at t 0 - ref).

(** An operation other than heating and fixed losses, all of whose temperatures lie in
    [lo, hi], that draws at or above inlet temperature and circulates at most [vol] gallons. *)
Definition exchange_ok (vol lo hi : Q) (o : mx_op) : Prop :=
  match o with
  | MInit s _ _ => lo <= s <= hi
  | MDraw v c s _ => lo <= c <= hi /\ c <= s
  | MRecirc f r d => lo <= r <= hi /\ 0 <= f * d <= vol
  | MInflow g p => lo <= p <= hi
  | MDrawPhysical g c => lo <= c <= hi
  | MHeat _ _ _ => False
  | MLoss _ _ => False
  end.
