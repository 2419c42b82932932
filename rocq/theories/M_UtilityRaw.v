(** Model of UtilityCostTracker.from_params with arguments as given: single values or lists. *)
From Verif Require Import Prelude M_Building M_Utility.
Open Scope Q_scope.

(** A rate, hour or month argument: one value for the year or a list of seasons. *)
Notation arg A := (one_or_many (option A) (list (option A))).

(** The arguments of from_params, UtilityCostTracker.py L290-307. *)
Record raw_params := mkRaw {
  rw_base : option Q;
  rw_pk_start : arg Q; rw_pk_end : arg Q; rw_pk_demand : arg Q; rw_pk_energy : arg Q;
  rw_off_demand : arg Q; rw_off_energy : arg Q;
  rw_start_month : arg Z; rw_end_month : arg Z;
  rw_include_discount : bool;
  rw_dc_start : arg Q; rw_dc_end : arg Q; rw_dc_demand : arg Q; rw_dc_energy : arg Q }.

(** L361-378: every argument becomes a list; single discount values are repeated for every season. *)
Definition normalise (r : raw_params) : params :=
  let starts := to_list (rw_pk_start r) in
  let n := length starts in
  mkParams (rw_base r) starts (to_list (rw_pk_end r)) (to_list (rw_pk_demand r)) (to_list (rw_pk_energy r))
    (to_list (rw_off_demand r)) (to_list (rw_off_energy r)) (to_list (rw_start_month r)) (to_list (rw_end_month r))
    (rw_include_discount r)
    (to_list_n (rw_dc_start r) n) (to_list_n (rw_dc_end r) n) (to_list_n (rw_dc_demand r) n) (to_list_n (rw_dc_energy r) n).

(** from_params, L289-417. *)
Definition from_raw (r : raw_params) : res tracker := from_params (normalise r).
