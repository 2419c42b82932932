(** Property C87, continued: the loop's volume that load-shift sizing adds to the daily use, as the program computes
    it, and property C89, continued: the heat loss of the loop. *)
From Coq Require Import ZArith SpecFloat.
From Verif Require Import Prelude M_StratifiedTank M_Building M_Float M_Float2 S_Float2 M_Sizing M_Float3 S_Float3 L_Float3 L_Float4 L_Float5 L_Float6 P_Float2.
From Coq Require Import Qabs Lqa Lia.
Open Scope Q_scope.

(** The loop's loss is within one part in 2^49 of what the formula gives exactly, the daily volume that makes up
    for it within one part in 2^48. *)
Theorem C87_loop_volume : forall flow supply ret inlet,
  f64_finite flow -> f64_finite supply -> f64_finite ret -> f64_finite inlet ->
  ordinary (f64_val flow) -> ordinary (f64_val supply - f64_val ret) -> ordinary (f64_val supply - f64_val inlet) ->
  exists l v, f64_recirc_loss flow supply ret = Ok l /\ f64_recirc_daily flow supply ret inlet = Ok v /\
    f64_finite l /\ f64_positive v /\
    (forall s, dh_supply s = f64_val supply ->
       Qabs (f64_val l - recirc_loss s (f64_val ret) (f64_val flow)) <= recirc_loss s (f64_val ret) (f64_val flow) / inject_Z (2 ^ 49)) /\
    (forall s b q, dh_supply s = f64_val supply -> design_inlet b = Ok (f64_val inlet) ->
       recirc_daily_gal (f64_val ret) (f64_val flow) s b = Ok q ->
       0 < q /\ Qabs (f64_val v - q) <= q / inject_Z (2 ^ 48)).
Proof.
  intros flow supply ret inlet Ff Fs Fr Fi Hf Ht Hd.
  destruct (loop_f64 flow supply ret inlet Ff Fs Fr Fi Hf Ht Hd) as (l & v & El & Ev & (Fl & Pl & Cl) & (Fv & Pv & Cv)).
  exists l, v. split; [exact El|]. split; [exact Ev|]. split; [exact Fl|]. split.
  { split; [exact Fv|]. change f64_u with (1 # 9007199254740992) in Cv. apply abs_le in Cv. lra. }
  split.
  - intros s Es. unfold recirc_loss. rewrite Es. change rho_cp with (8353535 # 1000000).
    set (x := _ / 1000) in *. eapply Qle_trans; [exact Cl|]. change f64_u with (1 # 9007199254740992).
    change (inject_Z (2 ^ 49)) with 562949953421312. setoid_replace (x / 562949953421312) with ((1 # 562949953421312) * x) by field. lra.
  - intros s b q Es Eb Q. unfold recirc_daily_gal, recirc_loss in Q. rewrite Eb, Es in Q. cbn [bind] in Q. unfold qdiv in Q.
    change rho_cp with (8353535 # 1000000) in Q. unfold ordinary in *.
    destruct (Qeq_bool ((8353535 # 1000000) * (f64_val supply - f64_val inlet)) 0) eqn:B1; [apply Qeq_bool_eq in B1; lra|]. cbn [bind] in Q.
    injection Q as <-. split; [exact Pv|].
    set (x := _ * 24) in *. eapply Qle_trans; [exact Cv|]. change f64_u with (1 # 9007199254740992).
    change (inject_Z (2 ^ 48)) with 281474976710656. setoid_replace (x / 281474976710656) with ((1 # 281474976710656) * x) by field. lra.
Qed.
Print Assumptions C87_loop_volume.

(** The case of [C87_unchanged_refuted]: 3 gpm returning at 110 F, supplied at 120 F, from a 60 F inlet: 720 gallons. *)
Example C87_loop_volume_case : exists l v,
  f64_recirc_loss (f64_of_int 3) (f64_of_int 120) (f64_of_int 110) = Ok l /\
  f64_recirc_daily (f64_of_int 3) (f64_of_int 120) (f64_of_int 110) (f64_of_int 60) = Ok v /\
  15 < f64_val l < 16 /\ 719 < f64_val v < 721 /\
  ordinary (f64_val (f64_of_int 3)) /\ ordinary (f64_val (f64_of_int 120) - f64_val (f64_of_int 110)) /\
  ordinary (f64_val (f64_of_int 120) - f64_val (f64_of_int 60)).
Proof.
  eexists. eexists. split; [vm_compute; reflexivity|]. split; [vm_compute; reflexivity|].
  repeat split; vm_compute; (discriminate || reflexivity).
Qed.

(** Dividing the running volume by the usable fraction of the tank is right to one part in 2^52. *)
Theorem C89_storage : forall running factor, f64_finite running -> f64_finite factor ->
  ordinary (f64_val running) -> 1 # 1000000 <= f64_val factor <= 1 ->
  exists v, f64_storage running factor = Ok v /\ f64_finite v /\
    forall q, storage_volume (f64_val running) (f64_val factor) = Ok q -> 0 < q /\ Qabs (f64_val v - q) <= q / inject_Z (2 ^ 52).
Proof.
  intros r f Fr Ff Hr Hf. destruct (storage_f64 r f (1 # 1000000) Fr Ff eq_refl Hr) as (z & E & F & P & C); [lra|discriminate|].
  exists z. split; [exact E|]. split; [exact F|]. intros q Q. unfold storage_volume, qdiv in Q.
  destruct (Qeq_bool (f64_val f) 0) eqn:B; [discriminate|]. injection Q as <-. split; [exact P|].
  set (x := _ / _) in C, P |- *. eapply Qle_trans; [exact C|]. change f64_u with (1 # 9007199254740992).
  change (inject_Z (2 ^ 52)) with 4503599627370496. fold x. setoid_replace (x / 4503599627370496) with ((1 # 4503599627370496) * x) by field. lra.
Qed.
Print Assumptions C89_storage.

Example C89_storage_case : exists f v,
  f64_div (f64_of_int 4) (f64_of_int 5) = Ok f /\ f64_storage (f64_of_int 1000) f = Ok v /\
  ordinary (f64_val (f64_of_int 1000)) /\ 1 # 1000000 <= f64_val f <= 1 /\ 1249 < f64_val v < 1251.
Proof. eexists. eexists. split; [vm_compute; reflexivity|]. split; [vm_compute; reflexivity|]. repeat split; vm_compute; (discriminate || reflexivity). Qed.
