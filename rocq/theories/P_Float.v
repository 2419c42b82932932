(** Property C86: billing in the machine's floating-point arithmetic. *)
From Verif Require Import Prelude M_Building S_Building M_Utility S_Utility M_Float.
From Verif Require Import L_Heater L_Building L_Utility L_Utility2 P_Utility L_Float.
Open Scope Z_scope.

(** Steps that divide the hour (1, 2, 3, 4, 5, 6, 10, 12, 15, 20, 30 or 60 minutes): every step of the first
    2^30 hours is placed in its hour, however the divisions round. *)
Theorem C86_hour : forall t iv h, (iv | 60) -> step_in_hour t iv h -> 0 <= h < 2 ^ 30 ->
  f64_hour_of_step t iv = Ok h.
Proof.
  intros t iv h D (St & Hiv) Hh. assert (T0 : 0 <= t) by nia.
  assert (B : iv <= 60) by (apply Z.divide_pos_le; [lia|exact D]).
  destruct (Z.eq_dec (t * iv) (60 * h)) as [E|E].
  - apply (hour_exact t iv h); try assumption; lia.
  - apply (hour_between t iv h); try assumption; lia.
Qed.
Print Assumptions C86_hour.

(** For any step length, a step starting after the hour is placed in its hour; only one starting
    exactly on the hour can be placed elsewhere, and then in the hour before. *)
Theorem C86_hour_any : forall t iv h, step_in_hour t iv h -> 0 <= t -> h < 2 ^ 30 -> iv <= 60 * 2 ^ 30 ->
  f64_hour_of_step t iv = Ok h \/ (t * iv = 60 * h /\ f64_hour_of_step t iv = Ok (h - 1)).
Proof.
  intros t iv h (St & Hiv) Ht Hh Hb.
  destruct (Z.eq_dec (t * iv) (60 * h)) as [E|E].
  - destruct (hour_sharp t iv h Hiv Ht Hb Hh E) as [X|X]; [left; exact X|right; split; assumption].
  - left. apply (hour_between t iv h); try assumption; lia.
Qed.
Print Assumptions C86_hour_any.

(** Hence the rates of C10 are the ones billed: energy rate, demand period and charge of every step
    of the year, with the hour computed in binary64. *)
Theorem C86_billed : forall p u t iv h m i w,
  from_params p = Ok u -> (iv | 60) -> step_in_hour t iv h -> hour_month h m -> covers p i m ->
  billed_in p i (h mod 24) w ->
  f64_energy_at u t iv = Ok (energy_rate p i w) /\
  exists k, f64_period_at u t iv = Ok k /\
    (forall kw, ut_demand_charge u k kw =
       match demand_rate p i w with Some d => Ok (d * kw)%Q | None => Err TypeError end).
Proof.
  intros p u t iv h m i w H D St Hm Hc Hw.
  destruct (C10_hour_billed p u t iv h m i w H St Hm Hc Hw) as (A & k & B1 & B2 & _).
  assert (Hh : 0 <= h < 2 ^ 30) by (destruct (hour_month_bounds h m Hm) as (M & B);
    do 12 (destruct m as [|m]; [cbn in B; lia|]); lia).
  pose proof (C86_hour t iv h D St Hh) as E. pose proof (hour_of_step_ok t iv h St) as X.
  unfold ut_energy_at in A. unfold ut_period_at in B1. rewrite X in A, B1.
  unfold f64_energy_at, f64_period_at. rewrite E. split; [exact A|]. exists k. split; [exact B1|exact B2].
Qed.
Print Assumptions C86_billed.

(** Not so for other lengths: with steps of 29 minutes the step that starts at 16:00 on 10 January
    is billed off-peak by a tariff whose peak starts at 16. *)
Theorem C86_other_lengths_refuted : exists p u t iv h,
  from_params p = Ok u /\ step_in_hour t iv h /\ t * iv = 60 * h /\ hour_month h 0 /\ covers p 0 0 /\
  billed_in p 0 (h mod 24) Peak /\
  energy_rate p 0 Peak = Some (3 # 10)%Q /\ f64_energy_at u t iv = Ok (Some (1 # 10)%Q).
Proof.
  destruct ex_two_accepted as (u & H). exists ex_two, u, 480, 29, 232.
  split; [exact H|]. split; [unfold step_in_hour; lia|]. split; [reflexivity|].
  split; [apply hour_month_intro; cbn; lia|].
  assert (C : covers ex_two 0 0) by (split; [cbn; lia|]; exists 0, 5; cbn; repeat split; lia).
  split; [exact C|]. split.
  { exists 16%Q, 21%Q. split; [reflexivity|]. split; [reflexivity|]. left. unfold Qle, Qlt. cbn. lia. }
  split; [reflexivity|].
  assert (NW : billed_in ex_two 0 (231 mod 24) OffPeak).
  { split.
    - intros (x & y & E1 & E2 & [W|W]); cbn in E1, E2; inversion E1; inversion E2; subst x y; unfold qz in W.
      + destruct W as (_ & W & _). revert W. apply Qlt_not_le. unfold Qlt. cbn. lia.
      + destruct W as (W & _). revert W. apply Qle_not_lt. unfold Qle. cbn. lia.
    - intros (D & _). discriminate D. }
  assert (St : step_in_hour 231 60 231) by (unfold step_in_hour; lia).
  destruct (C10_hour_billed ex_two u 231 60 231 0%nat 0%nat OffPeak H St ltac:(apply hour_month_intro; cbn; lia) C NW) as (A & _).
  unfold ut_energy_at in A. rewrite (hour_of_step_ok 231 60 231 St) in A.
  unfold f64_energy_at. assert (E : f64_hour_of_step 480 29 = Ok 231) by (vm_compute; reflexivity).
  rewrite E. exact A.
Qed.
Print Assumptions C86_other_lengths_refuted.

(** The last 15-minute step of the year, and a 29-minute step within an hour. *)
Example C86_case : (15 | 60) /\ step_in_hour 35039 15 8759 /\ f64_hour_of_step 35039 15 = Ok 8759 /\
  step_in_hour 481 29 232 /\ f64_hour_of_step 481 29 = Ok 232.
Proof.
  split; [exists 4; reflexivity|]. split; [unfold step_in_hour; lia|]. split; [vm_compute; reflexivity|].
  split; [unfold step_in_hour; lia|vm_compute; reflexivity].
Qed.
