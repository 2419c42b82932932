(** Completion of simulations whose step needs a positive interval. *)
From Verif Require Import Prelude M_Building M_Heater M_SimRun S_SimRun L_SimRun M_Step S_Step L_Step2.
Open Scope Q_scope.

Lemma sim_loop_total_iv {St} (stp : St -> Z -> Z -> res (St * step_out)) supply (P : St -> Prop) iv :
  (forall s i, P s -> exists s' o, stp s i iv = Ok (s', o) /\ P s' /\ length (so_temps o) = 6%nat) ->
  forall n i s r, P s -> length (sr_temps r) = 6%nat -> sr_iv r = iv -> exists x, sim_loop stp supply n i s r = Ok x.
Proof.
  intros T. induction n as [|n IH]; intros i s r HP L EI; [eexists; reflexivity|].
  cbn [sim_loop]. destruct (T s i HP) as (s1 & o & E & HP1 & L6). rewrite EI, E. cbn [bind].
  unfold record_timestep at 1. destruct (record_nodes_total (so_temps o) (sr_temps r) ltac:(lia)) as (c & Ec).
  rewrite Ec. cbn [bind].
  destruct (record_nodes_ok _ _ _ Ec) as (_ & LC & _).
  assert (DE : exists d, delivery_temp o = Ok d).
  { unfold delivery_temp.
    destruct (so_temps o) as [|a0 [|a1 [|a2 [|a3 [|a4 [|a5 [|]]]]]]]; try discriminate L6. cbn. destruct (so_delivery o); eexists; reflexivity. }
  destruct DE as (d & Ed). rewrite Ed. cbn [bind].
  match goal with |- context [check_outlet_deficit ?a d supply] => set (r2 := a) end.
  assert (L2 : length (sr_temps r2) = 6%nat /\ sr_iv r2 = iv).
  { unfold r2. destruct (Qle_bool (so_usable o) 0); cbn; split; lia. }
  destruct L2 as [L2 I2].
  unfold check_outlet_deficit. destruct (qltb d (supply - sr_thr r2)).
  - destruct (sr_max r2 <? sr_consec r2 + sr_iv r2)%Z; [eexists; reflexivity|apply IH; assumption].
  - apply IH; assumption.
Qed.

Lemma simulate_total_iv {St} (stp : St -> Z -> Z -> res (St * step_out)) (P : St -> Prop) s supply dur thr maxm tm :
  (forall s i iv, (0 < iv)%Z -> P s -> exists s' o, stp s i iv = Ok (s', o) /\ P s' /\ length (so_temps o) = 6%nat) ->
  P s -> known_duration dur -> exists s' r, simulate stp s supply dur thr maxm tm = Ok (s', r).
Proof.
  intros T Hs D. unfold simulate. assert (ST : exists a c, sim_times dur = Ok (a, c) /\ (0 < c)%Z) by (destruct D as [-> | ->]; eexists; eexists; split; reflexivity).
  destruct ST as (a & c & Est & Pc). rewrite Est. cbn [bind].
  destruct (sim_loop_total_iv stp supply P c (fun s i => T s i c Pc) (Z.to_nat (a / c)) 0 s (sr_new a c thr maxm tm) Hs eq_refl eq_refl) as ([s' r] & E).
  exists s', r. exact E.
Qed.
