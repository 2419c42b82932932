(** C81: the summary of a simulation. *)
From Verif Require Import Prelude M_Building M_Utility S_Utility M_Heater M_SimRun S_SimRun S_Summary L_SimRun P_SimRun.
Open Scope Q_scope.


(** The summary says of the steps that were executed: successful exactly if each of them ended with usable water, how
    many minutes did not, the energy of both heaters over all of them, the largest power any of them recorded, how
    many there were, and whether the last one completed too long a run of too cold water; if not, they cover the
    whole duration. *)
Theorem C81_summary : forall St (stp : St -> Z -> Z -> res (St * step_out)) s0 supply dur thr maxm tm s' r,
  simulate stp s0 supply dur thr maxm tm = Ok (s', r) ->
  exists total iv outs, sim_times dur = Ok (total, iv) /\ executed stp iv s0 0 outs s' /\
    let m := get_summary r in
    (sm_successful m = true <-> forall o, In o outs -> 0 < so_usable o) /\
    sm_outage m = (iv * Z.of_nat (length (outages outs)))%Z /\
    sm_energy m == qsum (map (step_kwh iv) outs) /\
    ((exists o x, In o outs /\ so_power o = Some x) ->
      (exists o, In o outs /\ so_power o = Some (sm_peak m)) /\ forall o x, In o outs -> so_power o = Some x -> x <= sm_peak m) /\
    ((forall o, In o outs -> so_power o = None) -> sm_peak m = 0) /\
    sm_steps m = length outs /\
    (sm_stopped m = true <-> too_long supply thr maxm iv outs (length outs - 1)) /\
    (sm_stopped m = false -> (Z.of_nat (sm_steps m) * iv = total)%Z).
Proof.
  intros St stp s0 supply dur thr maxm tm s' r H.
  destruct (C17_stops_exactly St stp s0 supply dur thr maxm tm s' r H) as (total & iv & outs & T & IV & EX & RC & LN & _ & STP & FULL).
  exists total, iv, outs. split; [exact T|]. split; [exact EX|]. cbv zeta. unfold get_summary. cbn [sm_successful sm_outage sm_energy sm_peak sm_steps sm_stopped].
  assert (O : sr_outage r = (iv * Z.of_nat (length (outages outs)))%Z) by (rewrite (rc_outage _ _ RC), IV; reflexivity).
  assert (IP : (0 < iv)%Z) by (destruct (C17_durations dur) as [[D _]|[[D _]|[D _]]]; rewrite D in T; inversion T; reflexivity).
  split; [|split; [exact O|split; [|split; [|split; [|split; [|split; [exact STP|]]]]]]].
  - unfold is_successful. rewrite O, Z.leb_le. split.
    + intros L o Ho. assert (N : length (outages outs) = 0%nat) by nia. apply length_zero_iff_nil in N.
      destruct (Qlt_le_dec 0 (so_usable o)) as [Q0|Q0]; [exact Q0|]. exfalso.
      assert (IN : In o (outages outs)) by (apply filter_In; split; [exact Ho|apply Qle_bool_iff; exact Q0]). rewrite N in IN. destruct IN.
    + intro P. assert (N : outages outs = []).
      { destruct (outages outs) as [|o os] eqn:E; [reflexivity|]. exfalso.
        assert (IN : In o (outages outs)) by (rewrite E; left; reflexivity). apply filter_In in IN. destruct IN as [I1 I2].
        apply Qle_bool_iff in I2. specialize (P o I1). lra. }
      rewrite N. cbn. lia.
  - unfold total_energy. cbv zeta. rewrite IV, (rc_power _ _ RC), (rc_tm_kw _ _ RC). set (h := qz iv / 60). unfold step_kwh. fold h. clear.
    induction outs as [|o l IH]; cbn [map qsum somes]; [ring|].
    destruct (so_tm_kw o); cbn [somes or0 map qsum]; rewrite <- IH; ring.
  - intros (o & x & IN & E). destruct (C16_peak_demand r) as (LE & _ & ATT & _). rewrite (rc_power _ _ RC) in LE, ATT. split.
    + assert (A : exists x, In (Some x) (map so_power outs)) by (exists x; apply in_map_iff; exists o; auto). specialize (ATT A).
      apply in_map_iff in ATT. destruct ATT as (o' & E' & I'). exists o'. auto.
    + intros o' x' I' E'. apply LE. apply in_map_iff. exists o'. auto.
  - intros N. destruct (C16_peak_demand r) as (_ & Z & _ & _). apply Z. rewrite (rc_power _ _ RC). intros p HP. apply in_map_iff in HP. destruct HP as (o & <- & I). apply N. exact I.
  - rewrite (rc_demand _ _ RC), map_length. reflexivity.
  - intro F. rewrite (rc_demand _ _ RC), map_length, (FULL F).
    destruct (C17_durations dur) as [[D _]|[[D _]|[D _]]]; rewrite D in T; inversion T; reflexivity.
Qed.
Print Assumptions C81_summary.

(** The system of C17 that turns cold: stopped after 13 minutes, none of them with usable water. *)
Example C81_case : exists s' r, simulate (ex_sys 0) 0%nat 120 "3day" 5 10 false = Ok (s', r) /\
  let m := get_summary r in sm_successful m = false /\ sm_outage m = 13%Z /\ sm_energy m == 53 / 60 /\ sm_peak m == 3 /\ sm_steps m = 13%nat /\ sm_stopped m = true.
Proof. eexists. eexists. split; [vm_compute; reflexivity|]. vm_compute. repeat split; reflexivity. Qed.
