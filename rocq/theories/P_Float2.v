(** Property C87: what load-shift sizing of a single-pass return-to-primary system leaves of its building's daily
    hot-water use, in the machine's floating-point arithmetic. *)
From Coq Require Import ZArith SpecFloat.
From Verif Require Import Prelude M_Float M_Float2 S_Float2 L_Float2.
Open Scope Q_scope.

(** One addition and subtraction of the loop's volume moves the daily use by at most one part in 2^52 of the
    sum. *)
Theorem C87_drift : forall daily r, f64_positive daily -> f64_positive r ->
  f64_val daily + f64_val r <= inject_Z (2 ^ 1023) ->
  f64_finite (f64_trip daily r) /\
  Qabs (f64_val (f64_trip daily r) - f64_val daily) <= (f64_val daily + f64_val r) / inject_Z (2 ^ 52).
Proof. exact trip_drift. Qed.
Print Assumptions C87_drift.

(** The disturbance does not grow: sizing once or any number of times, with the same loop, leaves the daily use
    where the first round trip left it. *)
Theorem C87_settles : forall n daily r, f64_positive daily -> f64_positive r ->
  f64_val daily + f64_val r <= inject_Z (2 ^ 1023) ->
  Nat.iter (S n) (fun d => f64_sized d r) daily = f64_trip daily r.
Proof.
  intros n daily r Pd Pr L. pose proof (trip_settles daily r Pd Pr L) as T.
  induction n as [|n IH].
  - change (f64_sized daily r = f64_trip daily r). unfold f64_sized. rewrite !T. reflexivity.
  - change (Nat.iter (S (S n)) (fun d => f64_sized d r) daily) with (f64_sized (Nat.iter (S n) (fun d => f64_sized d r) daily) r).
    rewrite IH. unfold f64_sized. rewrite !T. reflexivity.
Qed.
Print Assumptions C87_settles.

(** So however often the system is sized, the daily use stays within one part in 2^52 of the sum. *)
Theorem C87_sized : forall n daily r, f64_positive daily -> f64_positive r ->
  f64_val daily + f64_val r <= inject_Z (2 ^ 1023) ->
  Qabs (f64_val (Nat.iter n (fun d => f64_sized d r) daily) - f64_val daily)
    <= (f64_val daily + f64_val r) / inject_Z (2 ^ 52).
Proof.
  intros n daily r Pd Pr L. destruct n as [|n].
  - change (Nat.iter 0 (fun d => f64_sized d r) daily) with daily. setoid_replace (f64_val daily - f64_val daily) with 0 by ring. cbn [Qabs].
    apply Qle_shift_div_l; [reflexivity|]. rewrite Qmult_0_l. destruct Pd as (_ & Pd), Pr as (_ & Pr).
    apply Qlt_le_weak. rewrite <- (Qplus_0_l 0). apply Qplus_lt_le_compat; [exact Pd|apply Qlt_le_weak; exact Pr].
  - rewrite (C87_settles n daily r Pd Pr L). apply (proj2 (C87_drift daily r Pd Pr L)).
Qed.
Print Assumptions C87_sized.

(** When the sum is itself a binary64 number (as for whole gallons) the daily use is left as it was. *)
Theorem C87_exact : forall n daily r z, f64_positive daily -> f64_positive r -> f64_finite z ->
  f64_val z == f64_val daily + f64_val r -> f64_val daily + f64_val r <= inject_Z (2 ^ 1023) ->
  Nat.iter n (fun d => f64_sized d r) daily = daily.
Proof.
  intros n daily r z Pd Pr Fz Ez L. destruct n as [|n]; [reflexivity|].
  rewrite (C87_settles n daily r Pd Pr L). exact (trip_exact daily r z Pd Pr Fz Ez L).
Qed.
Print Assumptions C87_exact.

(** In general it is not: a building using 720 gallons a day, with 3 gpm returning at 110 F from a 120 F supply
    and a 60 F inlet, uses 720.0000000000001 gallons a day after it has been sized for. *)
Theorem C87_unchanged_refuted : exists r,
  f64_recirc_daily (f64_of_int 3) (f64_of_int 120) (f64_of_int 110) (f64_of_int 60) = Ok r /\
  f64_positive (f64_of_int 720) /\ f64_positive r /\ f64_val (f64_of_int 720) == 720 /\
  720 + f64_val r <= inject_Z (2 ^ 1023) /\
  720 < f64_val (f64_sized (f64_of_int 720) r).
Proof.
  exists (S754_finite false 6333186975989759 (-43)).
  split; [vm_compute; reflexivity|].
  split; [split; [split; [reflexivity|exact I]|vm_compute; reflexivity]|].
  split; [split; [split; [reflexivity|exact I]|vm_compute; reflexivity]|].
  split; [vm_compute; reflexivity|]. split; [vm_compute; discriminate|]. vm_compute; reflexivity.
Qed.
Print Assumptions C87_unchanged_refuted.

(** Whole gallons meet the hypotheses of C87_exact. *)
Example C87_exact_case : f64_positive (f64_of_int 720) /\ f64_positive (f64_of_int 360) /\ f64_finite (f64_of_int 1080) /\
  f64_val (f64_of_int 1080) == f64_val (f64_of_int 720) + f64_val (f64_of_int 360) /\
  f64_val (f64_of_int 720) + f64_val (f64_of_int 360) <= inject_Z (2 ^ 1023) /\
  f64_sized (f64_of_int 720) (f64_of_int 360) = f64_of_int 720.
Proof.
  split; [split; [split; [reflexivity|exact I]|vm_compute; reflexivity]|].
  split; [split; [split; [reflexivity|exact I]|vm_compute; reflexivity]|].
  split; [split; [reflexivity|exact I]|].
  split; [vm_compute; reflexivity|]. split; [vm_compute; discriminate|]. vm_compute; reflexivity.
Qed.
