(** Specification vocabulary for C01-C08, C56, C57: hours, days, months, valid shapes. *)
From Verif Require Import Prelude M_Building.

(** The [n] consecutive steps starting at step [s]. *)
Definition steps (s : Z) (n : nat) : list Z := map (fun i => (s + Z.of_nat i)%Z) (seq 0 n).

(** The load shape a query uses. *)
Definition shape_of (b : building) (use_avg : bool) : list Q :=
  if use_avg then bd_avg b else bd_peak b.

(** Step [t] of [iv] minutes starts in hour [h] of some cycle of [n] hours (a day for n = 24, a
    year for n = 8760). *)
Definition in_hour (n iv t h : Z) : Prop :=
  (0 <= h < n)%Z /\ exists d, (60 * (n * d + h) <= t * iv < 60 * (n * d + h + 1))%Z.

(** Step [t] of [iv] minutes starts on day [d] (0-based) of some 365-day year. *)
Definition on_day (iv t d : Z) : Prop :=
  (0 <= d < 365)%Z /\ exists y, (1440 * (365 * y + d) <= t * iv < 1440 * (365 * y + d + 1))%Z.

(** The calendar: days per month of a non-leap year. *)
Definition days_in_month : list Z := [31; 28; 31; 30; 31; 30; 31; 31; 30; 31; 30; 31]%Z.
(** Day [d] of the year lies in month [m] (0 = January). *)
Definition in_month (d : Z) (m : nat) : Prop :=
  (m < 12)%nat /\
  (fold_right Z.add 0 (firstn m days_in_month) <= d < fold_right Z.add 0 (firstn (S m) days_in_month))%Z.

(** A valid daily load shape. *)
Definition valid_shape (l : list Q) : Prop :=
  length l = 24%nat /\ Qabs (qsum l - 1) <= 1 # 1000 /\ forall x, In x l -> 0 <= x.

(** Mean temperature of a day of hourly data. *)
Definition day_mean (l : list Q) (d : nat) : Q := qsum (firstn 24 (skipn (d * 24) l)) / 24.

(** [x] lies in the 5-degree bucket starting at [k]. *)
Definition in_bucket (k x : Q) : Prop := k <= x /\ x < k + 5.

(** The custom shape that entry [i] of a mixed-use building is given: [Some None] if none. *)
Definition custom_at (c : option (one_or_many (list Q) (list (option (list Q))))) (i : nat)
  : option (option (list Q)) :=
  match c with
  | None => Some None
  | Some (Many l) => nth_error l i
  | Some (One _) => None
  end.
Definition as_single (c : option (list Q)) : option (one_or_many (list Q) (list (option (list Q)))) :=
  match c with None => None | Some l => Some (One l) end.

(** A history of switches between the two kinds of load shape. *)
Inductive switch := ToAnnual | ToDaily.
Definition apply_switch (lib : library) (b : building) (s : switch) : res building :=
  match s with ToAnnual => bd_set_annual lib b | ToDaily => bd_set_daily lib b end.
Fixpoint run_switches (lib : library) (b : building) (l : list switch) : res building :=
  match l with
  | [] => Ok b
  | s :: r => do b' <- apply_switch lib b s; run_switches lib b' r
  end.

(** No two of the numbers are equal. *)
Fixpoint qnodup (l : list Q) : Prop :=
  match l with [] => True | x :: r => (forall y, In y r -> ~ x == y) /\ qnodup r end.
(** Sum of the counts. *)
Fixpoint total (d : list (Q * Z)) : Z := match d with [] => 0 | (_, n) :: r => n + total r end.
