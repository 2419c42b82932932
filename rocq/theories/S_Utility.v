(** Specification vocabulary for C09-C12: what a tariff means. *)
From Verif Require Import Prelude M_Building S_Building M_Utility.

(** Parameters that describe a whole year: a numeric base charge, parallel lists of one length,
    and for each season [i] a daily peak window inside 0-24, four numeric rates, and a run of
    months starting where the previous season ended (the first in January, month 0) and ending
    later, the last one after December (month 12). *)
Definition season_ok (p : params) (n i : nat) : Prop :=
  (exists s e, nth i (pr_pk_start p) None = Some s /\ nth i (pr_pk_end p) None = Some e /\
               0 <= s /\ s <= 23 /\ s <= e /\ e <= 24) /\
  nth i (pr_pk_demand p) None <> None /\ nth i (pr_off_demand p) None <> None /\
  nth i (pr_pk_energy p) None <> None /\ nth i (pr_off_energy p) None <> None /\
  exists a b, nth i (pr_start_month p) None = Some a /\ nth i (pr_end_month p) None = Some b /\
    (a < b)%Z /\
    (i = 0%nat -> a = 0%Z) /\
    (forall j, i = S j -> nth j (pr_end_month p) None = Some a) /\
    (S i = n -> b = 12%Z).

Definition valid_tariff (p : params) : Prop :=
  let n := length (pr_pk_start p) in
  pr_base p <> None /\
  length (pr_pk_end p) = n /\ length (pr_pk_demand p) = n /\ length (pr_pk_energy p) = n /\
  length (pr_off_demand p) = n /\ length (pr_off_energy p) = n /\
  length (pr_start_month p) = n /\ length (pr_end_month p) = n /\
  forall i, (i < n)%nat -> season_ok p n i.

(** The discount lists have an entry for every season. *)
Definition discounts_long (p : params) : Prop :=
  let n := length (pr_pk_start p) in
  (n <= length (pr_dc_energy p))%nat /\ (n <= length (pr_dc_demand p))%nat /\
  (n <= length (pr_dc_start p))%nat /\ (n <= length (pr_dc_end p))%nat.

(** Season [i] covers month [m]. *)
Definition covers (p : params) (i : nat) (m : nat) : Prop :=
  (i < length (pr_pk_start p))%nat /\
  exists a b, nth i (pr_start_month p) None = Some a /\ nth i (pr_end_month p) None = Some b /\
              (a <= Z.of_nat m < b)%Z.

(** Hour of day [hod] is in the daily window from [s] to [e], which runs past midnight if e < s. *)
Definition in_window (hod : Z) (s e : option Q) : Prop :=
  exists x y, s = Some x /\ e = Some y /\
    ((x <= y /\ x <= qz hod /\ qz hod < y) \/ (y < x /\ (x <= qz hod \/ qz hod < y))).

Inductive window := OffPeak | Peak | Discount.

Definition peak_hour (p : params) (i : nat) (hod : Z) : Prop :=
  in_window hod (nth i (pr_pk_start p) None) (nth i (pr_pk_end p) None).
Definition discount_hour (p : params) (i : nat) (hod : Z) : Prop :=
  pr_include_discount p = true /\
  in_window hod (nth i (pr_dc_start p) None) (nth i (pr_dc_end p) None).

(** The window an hour of day is billed in: peak first, then discount, else off-peak. *)
Definition billed_in (p : params) (i : nat) (hod : Z) (w : window) : Prop :=
  match w with
  | Peak => peak_hour p i hod
  | Discount => ~ peak_hour p i hod /\ discount_hour p i hod
  | OffPeak => ~ peak_hour p i hod /\ ~ discount_hour p i hod
  end.

(** The rates of season [i]. *)
Definition energy_rate (p : params) (i : nat) (w : window) : option Q :=
  match w with
  | OffPeak => nth i (pr_off_energy p) None
  | Peak => nth i (pr_pk_energy p) None
  | Discount => nth i (pr_dc_energy p) None
  end.
Definition demand_rate (p : params) (i : nat) (w : window) : option Q :=
  match w with
  | OffPeak => nth i (pr_off_demand p) None
  | Peak => nth i (pr_pk_demand p) None
  | Discount => nth i (pr_dc_demand p) None
  end.

(** Step [t] of [iv] minutes starts in hour [h] of the year. *)
Definition step_in_hour (t iv h : Z) : Prop := (60 * h <= t * iv < 60 * (h + 1))%Z /\ (0 < iv)%Z.

(** Hour [h] of the year lies in month [m]. *)
Definition hour_month (h : Z) (m : nat) : Prop := in_month (h / 24) m.

(** The window exists in the tariff. *)
Definition window_in (p : params) (w : window) : Prop := w = Discount -> pr_include_discount p = true.
(** Classification of a period by its window. *)
Definition is_peak_window (w : window) : bool := match w with Peak => true | _ => false end.
Definition is_discount_window (w : window) : bool := match w with Discount => true | _ => false end.
(** The discount rates of every season are numbers. *)
Definition discount_rates_given (p : params) : Prop :=
  pr_include_discount p = true -> forall i, (i < length (pr_pk_start p))%nat ->
    nth i (pr_dc_demand p) None <> None /\ nth i (pr_dc_energy p) None <> None.
