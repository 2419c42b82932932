(** Specification vocabulary for theorems added after mutation testing. *)
From Verif Require Import Prelude M_Heater S_Sizing S_Integral.
Open Scope Q_scope.

(** Share of the heat above supply temperature that water at height [h] carries, compared with water at
    storage temperature. *)
Definition surplus_at (on_pct on_temp slope supply storage h : Q) : Q :=
  qmax 0 ((trigger_profile on_pct on_temp slope storage h - supply) / (storage - supply)).

(** The controls a heater follows in load-up hours: those given for them, else the normal ones. *)
Definition used_in_load_up (d : list (string * controls)) (c : controls) : Prop :=
  dict_get d "loadUp" = Some c \/ (dict_get d "loadUp" = None /\ dict_get d "normal" = Some c).

(** The controls a new multi-pass system starts from: the normal ones, else the first given. *)
Definition starting_controls (d : list (string * controls)) (c : controls) : Prop :=
  dict_get d "normal" = Some c \/ (dict_get d "normal" = None /\ exists k r, d = (k, c) :: r).

(** [i] is the whole number nearest to [x]; half way between two, the even one. *)
Definition nearest_whole (x : Q) (i : Z) : Prop :=
  Qabs (qz i - x) <= 1 # 2 /\ (Qabs (qz i - x) == 1 # 2 -> Z.Even i).
