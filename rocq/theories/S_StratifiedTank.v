(** Specification vocabulary for the stratified tank: what an observer sees. *)
From Verif Require Import Prelude M_StratifiedTank.
Open Scope Q_scope.

(** A physically meaningful tank: positive volume and positive gradient. *)
Definition st_wf (t : strat) : Prop := 0 < st_vol t /\ 0 < st_slope t.

(** [T] is the temperature profile the tank reports: height fraction to temperature. *)
Definition profile (t : strat) (T : Q -> Q) : Prop := forall f, st_temp t f = Ok (T f).

(** Inlet / outlet temperature a call passes in, if any. *)
Definition inlet_of (o : st_op) : option Q :=
  match o with SInit _ c _ => Some c | SDraw _ c _ _ => Some c | SDrawPhysical _ c _ => Some c | _ => None end.
Definition outlet_of (o : st_op) : option Q :=
  match o with SInit h _ _ => Some h | SDraw _ _ _ h => Some h | SHeat _ _ h => Some h | _ => None end.
Definition upd (d : Q) (o : option Q) : Q := match o with Some x => x | None => d end.

(** The inlet / outlet temperature most recently passed in by a history of calls
    (50 and 140 are the constructor's defaults). *)
Definition current_inlet (os : list st_op) : Q := fold_left (fun a o => upd a (inlet_of o)) os 50.
Definition current_outlet (os : list st_op) : Q := fold_left (fun a o => upd a (outlet_of o)) os 140.

(** The profile that reaches temperature [s] exactly at the top of the tank. *)
Definition spent_profile (cold outlet slope s f : Q) : Q :=
  qmax cold (qmin outlet (s - slope * 100 * (1 - f))).
