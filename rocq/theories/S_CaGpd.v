(** Specification vocabulary for C82: order statistics and the day totals of an apartment mix. *)
From Verif Require Import Prelude.
Open Scope Q_scope.

(** How many values lie below, at or below, above [x]. *)
Definition below (x : Q) (l : list Q) : nat := length (filter (fun y => qltb y x) l).
Definition at_most (x : Q) (l : list Q) : nat := length (filter (fun y => Qle_bool y x) l).
Definition above (x : Q) (l : list Q) : nat := length (filter (fun y => qltb x y) l).

(** [x] is the value at position [k], counted from 0, when the values are put in ascending order. *)
Definition is_ranked (l : list Q) (k : nat) (x : Q) : Prop :=
  (exists y, In y l /\ y == x) /\ (below x l <= k < at_most x l)%nat.

(** The gallons of day [d]: each unit size's figure of that day times its number of units. *)
Fixpoint day_gallons (rows : list (list Q)) (units : list Z) (d : nat) : Q :=
  match rows, units with
  | row :: rows', n :: units' => qz n * nth d row 0 + day_gallons rows' units' d
  | _, _ => 0
  end.

Definition units_of (units : list Z) : Q := qz (fold_right Z.add 0%Z units).

(** [g] is the multiple of a tenth nearest to [x]; half way between two, the even one. *)
Definition nearest_tenth (x g : Q) : Prop :=
  exists z, g == qz z / 10 /\ Qabs (qz z - 10 * x) <= 1 # 2 /\ (Qabs (qz z - 10 * x) == 1 # 2 -> Z.Even z).

(** The days of the year's totals. *)
Definition year_days (rows : list (list Q)) (units : list Z) : list Q := map (day_gallons rows units) (seq 0 365).
