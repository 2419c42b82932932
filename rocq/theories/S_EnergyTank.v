(** Specification vocabulary for the energy tank and the slug overlay. *)
From Verif Require Import Prelude M_StratifiedTank M_EnergyTank.
Open Scope Q_scope.

(** A physically meaningful tank. *)
Definition en_wf (t : entank) : Prop :=
  0 < en_vol t /\ 0 < en_slope t /\ 0 <= en_cold_pct t /\ en_cold_pct t < 100.

(** [T] is the temperature profile the tank reports. *)
Definition en_profile (t : entank) (T : Q -> Q) : Prop := forall f, en_temp t f = Ok (T f).

(** Energy of a tank whose water above the cold inlet is all at storage temperature. *)
Definition en_full (t : entank) : Q :=
  rho_cp * ((1 - en_cold_pct t / 100) * en_vol t) * (en_storage t - en_cold t).

(** Tolerance of the energy-to-profile search: its own break-off tolerance, or what is left
    after 30 halvings of its starting interval (in BTU). *)
Definition en_tol (t : entank) : Q :=
  (1 # 1000000) * qmax (en_energy t) 1
  + rho_cp * en_vol t / 100 * (en_storage t - en_cold t)
    * (100 + (en_storage t - en_cold t) / en_slope t) / inject_Z (2 ^ 31).

(** Operations at the constant inlet temperature [c] and storage temperature [h]. *)
Definition const_inlet (c h : Q) (o : en_op) : Prop :=
  match o with
  | EInit s c' _ => s == h /\ c' == c
  | EDraw _ c' _ _ => c' == c
  | EAdd _ => True
  | EHeat k d _ => 0 <= k * d
  | ERecirc f r d s => 0 <= f * d /\ r <= match s with Some x => x | None => h end
  | EDrawPhysical _ c' u => u = true -> c' == c
  end.

(** Operations at varying inlet temperatures, none above the storage temperature [h]. *)
Definition inlet_below (h : Q) (o : en_op) : Prop :=
  match o with
  | EInit s c' _ => s == h /\ c' <= h
  | EDraw _ c' _ _ => c' <= h
  | EHeat k d _ => 0 <= k * d
  | EDrawPhysical _ c' u => u = true -> c' <= h
  | _ => True
  end.

(** ** Slug overlay *)
(** A newly constructed overlay tank with meaningful parameters. *)
Definition sl_params_ok (vol pu slope : Q) : Prop := 0 < vol /\ 0 < slope /\ 0 < pu /\ pu <= 1.

(** Calls on the overlay at storage temperature [h], with every inlet temperature between [lo] and
    below [h]: every public operation, except growing the slug directly with add_to_slug (which
    draw_physical_gal does within the tank's volume). *)
Definition slug_call (lo h : Q) (o : sl_op) : Prop :=
  match o with
  | LInit st c _ => st == h /\ lo <= c /\ c < h
  | LActivate _ => True
  | LAdd _ _ => False
  | LHeat k d => 0 <= k * d
  | LDeactivate => True
  | LDrawPhysical _ c _ => lo <= c /\ c < h
  | LDraw _ c _ _ => lo <= c /\ c < h
  | LAddEnergy _ => True
  | LHeatTank k d _ => 0 <= k * d
  | LRecirc _ _ _ _ => True
  end.

(** States of an overlay tank reached by such calls from its construction. *)
Definition sl_reachable (lo h : Q) (t : slug) : Prop :=
  exists vol cold supply pu slope os, sl_params_ok vol pu slope /\ lo <= cold /\ cold < h /\
    Forall (slug_call lo h) os /\ sl_run (sl_new vol cold h supply pu slope) os = Ok t.
