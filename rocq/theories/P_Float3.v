(** Property C89: sizing in the machine's floating-point arithmetic. The properties of the sized capacity and storage
    are proved in exact arithmetic; here they are carried over to the numbers the program computes. *)
From Coq Require Import ZArith List SpecFloat.
From Verif Require Import Prelude M_StratifiedTank M_Building M_Float M_Float2 S_Float2 M_Sizing S_Sizing L_Sizing M_Float3 S_Float3
  L_Sizing3 L_Float3 L_Float4 L_Float5.
From Coq Require Import Qabs Lqa Lia.
Import ListNotations.
Open Scope Q_scope.

(** The capacity is within one part in 2^49 of what the formula gives exactly. *)
Theorem C89_capacity : forall daily run supply inlet defrost,
  f64_finite daily -> f64_finite run -> f64_finite supply -> f64_finite inlet -> f64_finite defrost ->
  ordinary (f64_val daily) -> ordinary (f64_val run) -> ordinary (f64_val supply - f64_val inlet) ->
  ordinary (f64_val defrost) ->
  exists c, f64_capacity daily run supply inlet defrost = Ok c /\ f64_finite c /\
    forall s b q, bd_daily b = f64_val daily -> dh_run s = f64_val run -> dh_supply s = f64_val supply ->
      design_inlet b = Ok (f64_val inlet) -> dh_defrost s = f64_val defrost -> base_capacity s b = Ok q ->
      0 < q /\ Qabs (f64_val c - q) <= q / inject_Z (2 ^ 49).
Proof.
  intros daily run supply inlet defrost Fd Fr Fs Fi Fo Hd Hr Ht Ho.
  destruct (capacity_f64 daily run supply inlet defrost Fd Fr Fs Fi Fo Hd Hr Ht Ho) as (c & E & Fc & P & C).
  exists c. split; [exact E|]. split; [exact Fc|]. intros s b q E1 E2 E3 E4 E5 Q. unfold base_capacity in Q.
  rewrite E1, E2, E3, E4, E5 in Q. cbn [bind] in Q. unfold qdiv in Q. unfold ordinary in *.
  destruct (Qeq_bool (f64_val run) 0) eqn:B1; [apply Qeq_bool_eq in B1; lra|]. cbn [bind] in Q.
  destruct (Qeq_bool (f64_val defrost) 0) eqn:B2; [apply Qeq_bool_eq in B2; lra|]. cbn [bind] in Q.
  injection Q as <-. change rho_cp with (8353535 # 1000000). split; [exact P|].
  set (x := _ / 1000) in *. eapply Qle_trans; [exact C|]. change f64_u with (1 # 9007199254740992).
  change (inject_Z (2 ^ 49)) with 562949953421312. setoid_replace (x / 562949953421312) with ((1 # 562949953421312) * x) by field. lra.
Qed.
Print Assumptions C89_capacity.

Lemma day_facts daily run shape : f64_day daily run shape ->
  f64_positive daily /\ f64_eta <= f64_u * f64_val daily /\ 1000 * f64_val daily <= f64_big /\ f64_finite run /\
  1 <= f64_val run /\ shape <> [] /\ (length shape <= 24)%nat /\
  Forall (fun f => f64_finite f /\ 0 <= f64_val f <= 1) shape /\
  f64_val run * qsum (map f64_val shape) <= qz (Z.of_nat (length shape)).
Proof.
  intros (Fd & (L & U) & Fr & R1 & (N0 & N) & Fs & S0).
  assert (P : 0 < f64_val daily) by (eapply Qlt_le_trans; [|exact L]; vm_compute; reflexivity).
  split; [split; assumption|]. split.
  { apply Qle_trans with (f64_u * (1 / inject_Z (2 ^ 900))); [vm_compute; discriminate|]. apply Qmult_le_l; [reflexivity|exact L]. }
  split.
  { apply Qle_trans with (1000 * inject_Z (2 ^ 900)); [apply Qmult_le_l; [reflexivity|exact U]|vm_compute; discriminate]. }
  assert (NE : shape <> []) by (intro E; rewrite E in N0; cbn in N0; lia). tauto.
Qed.

Lemma part_of_use D : 8192 * (f64_u * D) == D / inject_Z (2 ^ 40).
Proof.
  change f64_u with (1 # 9007199254740992). change (inject_Z (2 ^ 40)) with 1099511627776. field.
Qed.

(** The running volume is within one part in 2^40 of the daily use of the exact one. *)
Theorem C89_running : forall daily run shape, f64_day daily run shape ->
  exists r, f64_running daily run shape = Ok r /\ f64_finite r /\ 0 <= f64_val r /\
    forall s b k q, bd_daily b = f64_val daily -> dh_run s = f64_val run -> bd_peak b = map f64_val shape ->
      base_running s b k = Ok q -> Qabs (f64_val r - q) <= f64_val daily / inject_Z (2 ^ 40).
Proof.
  intros daily run shape H. apply day_facts in H. destruct H as (H1 & H2 & H3 & H4 & H5 & H6 & H7 & H8 & H9).
  destruct (running_f64 daily run shape H1 H2 H3 H4 H5 H6 H7 H8 H9) as (r & E & F & R0 & C).
  exists r. split; [exact E|]. split; [exact F|]. split; [exact R0|]. intros s b k q E1 E2 E3 Q. unfold base_running in Q.
  rewrite E1, E2, E3 in Q. unfold qdiv in Q.
  destruct (Qeq_bool (f64_val run) 0) eqn:B1; [apply Qeq_bool_eq in B1; lra|]. cbn [bind] in Q. injection Q as <-.
  rewrite <- part_of_use. exact C.
Qed.
Print Assumptions C89_running.

(** A store of the computed running volume plus that part of the daily use never runs out, on any day, from any hour. *)
Theorem C89_never_runs_out : forall daily run shape, f64_day daily run shape ->
  exists r, f64_running daily run shape = Ok r /\ f64_finite r /\
    forall start n, 0 <= level (f64_val r + f64_val daily / inject_Z (2 ^ 40)) (steady (f64_val daily / f64_val run))
                            (demand_at (f64_val daily) (map f64_val shape)) start n.
Proof.
  intros daily run shape H. apply day_facts in H. destruct H as (H1 & H2 & H3 & H4 & H5 & H6 & H7 & H8 & H9).
  destruct (running_f64 daily run shape H1 H2 H3 H4 H5 H6 H7 H8 H9) as (r & E & F & R0 & C).
  exists r. split; [exact E|]. split; [exact F|]. intros start n. rewrite part_of_use in C. apply abs_le in C.
  set (V := running_of_diff _) in C.
  eapply Qle_trans; [|apply (level_mono V); lra]. apply c35_never_negative.
  - destruct shape; [congruence|discriminate].
  - rewrite map_length.
    setoid_replace (f64_val daily * qsum (map f64_val shape))
      with (f64_val daily / f64_val run * (f64_val run * qsum (map f64_val shape))) by (field; lra).
    rewrite !(Qmult_comm (f64_val daily / f64_val run)). apply Qmult_le_compat_r; [exact H9|].
    apply Qle_shift_div_l; destruct H1; lra.
Qed.
Print Assumptions C89_never_runs_out.

(** And a store smaller than it by more than that part runs out within a day. *)
Theorem C89_minimal : forall daily run shape V, f64_day daily run shape ->
  exists r, f64_running daily run shape = Ok r /\ f64_finite r /\
    (V < f64_val r - f64_val daily / inject_Z (2 ^ 40) ->
     exists start n, (start < length shape)%nat /\ (n <= length shape)%nat /\
       level V (steady (f64_val daily / f64_val run)) (demand_at (f64_val daily) (map f64_val shape)) start n < 0).
Proof.
  intros daily run shape V H. apply day_facts in H. destruct H as (H1 & H2 & H3 & H4 & H5 & H6 & H7 & H8 & H9).
  destruct (running_f64 daily run shape H1 H2 H3 H4 H5 H6 H7 H8 H9) as (r & E & F & R0 & C).
  exists r. split; [exact E|]. split; [exact F|]. intros HV. rewrite part_of_use in C. apply abs_le in C.
  rewrite <- (map_length f64_val shape). apply c36_minimal.
  - destruct shape; [congruence|discriminate].
  - rewrite map_length.
    setoid_replace (f64_val daily * qsum (map f64_val shape))
      with (f64_val daily / f64_val run * (f64_val run * qsum (map f64_val shape))) by (field; lra).
    rewrite !(Qmult_comm (f64_val daily / f64_val run)). apply Qmult_le_compat_r; [exact H9|].
    apply Qle_shift_div_l; destruct H1; lra.
  - lra.
Qed.
Print Assumptions C89_minimal.

(** 1000 gallons a day, 18 run hours, 8 hours without use, 8 with 3/32 of it each and 8 with 1/32 each. *)
Definition ex_shape : list spec_float :=
  repeat f64_zero 8 ++ repeat (S754_finite false 6755399441055744 (-56)) 8 ++ repeat (S754_finite false 4503599627370496 (-57)) 8.
Example C89_case : f64_day (f64_of_int 1000) (f64_of_int 18) ex_shape /\
  map f64_val ex_shape <> repeat 0 24 /\
  exists c, f64_capacity (f64_of_int 1000) (f64_of_int 18) (f64_of_int 120) (f64_of_int 50) (f64_of_int 1) = Ok c /\
    ordinary (f64_val (f64_of_int 120) - f64_val (f64_of_int 50)) /\ 32 < f64_val c < 33.
Proof.
  split.
  - split; [vm_compute; auto|]. split; [split; vm_compute; discriminate|]. split; [vm_compute; auto|].
    split; [vm_compute; discriminate|]. split; [vm_compute; lia|]. split; [|vm_compute; discriminate].
    unfold ex_shape. rewrite !Forall_app. repeat split; apply Forall_forall; intros x Hx; apply repeat_spec in Hx; subst x;
    (split; [split; [vm_compute; reflexivity|exact I]|split; vm_compute; discriminate]).
  - split; [discriminate|]. eexists. split; [vm_compute; reflexivity|]. split; [split; vm_compute; discriminate|].
    split; vm_compute; reflexivity.
Qed.

(** The computed volume is not exactly the exact one: 1000 gallons, all in the first of four periods, made in three. *)
Theorem C89_exact_refuted : exists daily run shape r s b q,
  f64_day daily run shape /\ f64_running daily run shape = Ok r /\
  bd_daily b = f64_val daily /\ dh_run s = f64_val run /\ bd_peak b = map f64_val shape /\
  base_running s b 0 = Ok q /\ ~ f64_val r == q.
Proof.
  exists (f64_of_int 1000), (f64_of_int 3), [f64_of_int 1; f64_zero; f64_zero; f64_zero]. eexists.
  exists (mkDhw 120 150 (f64_val (f64_of_int 3)) 1 None None None),
         (mkBuilding None (f64_val (f64_of_int 1000)) (map f64_val [f64_of_int 1; f64_zero; f64_zero; f64_zero])
            (map f64_val [f64_of_int 1; f64_zero; f64_zero; f64_zero]) "custom").
  eexists. split.
  - split; [vm_compute; auto|]. split; [split; vm_compute; discriminate|]. split; [vm_compute; auto|].
    split; [vm_compute; discriminate|]. split; [vm_compute; lia|]. split; [|vm_compute; discriminate].
    repeat (constructor; [split; [split; [vm_compute; reflexivity|vm_compute; exact I]|split; vm_compute; discriminate]|]). constructor.
  - split; [vm_compute; reflexivity|]. split; [reflexivity|]. split; [reflexivity|]. split; [reflexivity|].
    split; [vm_compute; reflexivity|]. vm_compute. discriminate.
Qed.
Print Assumptions C89_exact_refuted.
