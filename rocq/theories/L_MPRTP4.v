(** Lemmas about the capacity boost of multi-pass systems (C49). *)
From Verif Require Import Prelude M_StratifiedTank M_EnergyTank M_Building M_Heater M_Sizing M_SimRun M_Step S_SimRun M_MPRTP S_MPRTP S_MPRTP2 L_Building L_MPRTP2.
Open Scope Q_scope.

Section Trial.
Variable supply : Q.

Lemma came_on_app p q j : (j < length p)%nat -> came_on (p ++ q) j <-> came_on p j.
Proof.
  intro L. unfold came_on. rewrite nth_error_app1 by exact L. split; intros [A B]; (split; [exact A|]); intros k o E N; apply (B k o E).
  - rewrite nth_error_app1 by lia. exact N.
  - rewrite nth_error_app1 in N by lia. exact N.
Qed.
Lemma on_since_app p q i k : (i < length p)%nat -> on_since p i k -> on_since (p ++ q) i k.
Proof.
  intros L (A & B & C). split; [exact A|]. split.
  - intros j J H. apply (B j J). exact (proj1 (came_on_app p q j ltac:(lia)) H).
  - destruct C as [C|[C1 C2]]; [left; exact (proj2 (came_on_app p q k ltac:(lia)) C)|right]. split; [exact C1|]. intro H. apply C2. exact (proj1 (came_on_app p q 0%nat ltac:(lia)) H).
Qed.
Lemma short_app p q i t : (i < length p)%nat -> short_minute supply (p ++ q) i t <-> short_minute supply p i t.
Proof. intro L. unfold short_minute. rewrite nth_error_app1 by exact L. reflexivity. Qed.

(** The running values after the minutes [p]. *)
Record seen (p : list step_out) (r : trial) : Prop := {
  se_on : tr_on r = true <-> exists k o, S k = length p /\ nth_error p k = Some o /\ 0 < so_output o;
  se_start : exists k, tr_start r = Z.of_nat k /\ match length p with O => k = 0%nat | S i => on_since p i k end;
  se_worst : (tr_min r = supply /\ tr_deficit r = 0%Z /\ forall i t, ~ short_minute supply p i t) \/
             (exists i k, worst_minute supply p i (tr_min r) /\ on_since p i k /\ tr_deficit r = (Z.of_nat i - Z.of_nat k)%Z) }.

Lemma nth_new (p : list step_out) o : nth_error (p ++ [o]) (length p) = Some o.
Proof. rewrite nth_error_app2 by lia. rewrite Nat.sub_diag. reflexivity. Qed.

Lemma short_in p i t : short_minute supply p i t -> (i < length p)%nat.
Proof. intros (o & E & _). apply nth_error_Some. rewrite E. discriminate. Qed.

Lemma seen_step p r o : seen p r -> seen (p ++ [o]) (trial_minute (Z.of_nat (length p)) o r).
Proof.
  intros [ON (k & KS & KP) W].
  set (i := length p) in *.
  assert (CO : came_on (p ++ [o]) i <-> 0 < so_output o /\ tr_on r = false).
  { unfold came_on. rewrite nth_new. split.
    - intros [(o' & E & H) B]. injection E as <-. split; [exact H|]. destruct (tr_on r) eqn:T; [|reflexivity]. destruct (proj1 ON eq_refl) as (j & oj & J1 & J2 & J3).
      exfalso. specialize (B j oj J1). rewrite nth_error_app1 in B by (fold i; lia). specialize (B J2). lra.
    - intros [H T]. split; [exists o; auto|]. intros j oj J N. rewrite nth_error_app1 in N by (fold i; lia). apply Qnot_lt_le. intro P.
      assert (tr_on r = true) by (apply ON; exists j, oj; auto). congruence. }
  assert (LEN : length (p ++ [o]) = S i) by (rewrite app_length; cbn; fold i; lia).
  assert (NEW : exists k', on_since (p ++ [o]) i k' /\
     (if (qltb 0 (so_output o) && negb (tr_on r))%bool then (true, Z.of_nat i)
      else if (Qle_bool (so_output o) 0 && tr_on r)%bool then (false, tr_start r)
      else (tr_on r, tr_start r)) = (qltb 0 (so_output o), Z.of_nat k')).
  { destruct (qltb 0 (so_output o)) eqn:P, (tr_on r) eqn:T; cbn [negb andb].
    - exists k. assert (Qle_bool (so_output o) 0 = false) as -> by (apply not_true_iff_false; intro F; apply Qle_bool_iff in F; apply qltb_true in P; lra). cbn [andb].
      split; [|rewrite KS; reflexivity]. destruct (proj1 ON eq_refl) as (j & _ & J & _). rewrite <- J in KP.
      destruct (on_since_app p [o] j k ltac:(fold i; lia) KP) as (A & B & C). split; [lia|]. split; [|exact C]. intros j' J' H.
      destruct (Nat.eq_dec j' i) as [->|NE]; [apply CO in H; destruct H; discriminate|]. apply (B j'); [lia|exact H].
    - exists i. split; [|reflexivity]. split; [lia|]. split; [intros; lia|]. left. apply CO. apply qltb_true in P. auto.
    - exists k. assert (Qle_bool (so_output o) 0 = true) as -> by (apply Qle_bool_iff; apply qltb_false in P; exact P). cbn [andb].
      split; [|rewrite KS; reflexivity]. destruct (proj1 ON eq_refl) as (j & _ & J & _). rewrite <- J in KP.
      destruct (on_since_app p [o] j k ltac:(fold i; lia) KP) as (A & B & C). split; [lia|]. split; [|exact C]. intros j' J' H.
      destruct (Nat.eq_dec j' i) as [->|NE]; [apply CO in H; destruct H; discriminate|]. apply (B j'); [lia|exact H].
    - exists k. rewrite andb_false_r. split; [|rewrite KS; reflexivity].
      assert (NC : ~ came_on (p ++ [o]) i) by (intro H; apply CO in H; destruct H as [H _]; apply qltb_false in P; lra).
      destruct i as [|j] eqn:EI.
      + subst k. split; [lia|]. split; [intros; lia|]. right. auto.
      + destruct (on_since_app p [o] j k ltac:(fold i; lia) KP) as (A & B & C). split; [lia|]. split; [|exact C]. intros j' J' H.
        destruct (Nat.eq_dec j' (S j)) as [->|NE]; [exact (NC H)|]. apply (B j'); [lia|exact H]. }
  destruct NEW as (k' & OS & EQ). unfold trial_minute. rewrite EQ. clear EQ.
  set (top := last (so_temps o) 0).
  assert (SN : forall t, short_minute supply (p ++ [o]) i t <-> so_usable o <= 0 /\ t = top /\ top < supply).
  { intro t. unfold short_minute. rewrite nth_new. split; [intros (o' & E & U & T & S1); injection E as <-; subst t; auto|]. intros (U & -> & S1). exists o. auto. }
  assert (OLD : forall j t, short_minute supply (p ++ [o]) j t -> j <> i -> short_minute supply p j t).
  { intros j t H NE. pose proof (short_in _ _ _ H) as L. rewrite LEN in L. exact (proj1 (short_app p [o] j t ltac:(fold i; lia)) H). }
  assert (RON : qltb 0 (so_output o) = true <-> exists k o0, S k = length (p ++ [o]) /\ nth_error (p ++ [o]) k = Some o0 /\ 0 < so_output o0).
  { rewrite LEN. split.
    - intro P. apply qltb_true in P. exists i, o. split; [reflexivity|]. split; [apply nth_new|exact P].
    - intros (j & o0 & J & N & P). injection J as ->. unfold i in N. rewrite nth_new in N. injection N as <-. apply qltb_true. exact P. }
  assert (RST : exists k0, Z.of_nat k' = Z.of_nat k0 /\ match length (p ++ [o]) with O => k0 = 0%nat | S j => on_since (p ++ [o]) j k0 end).
  { exists k'. rewrite LEN. auto. }
  assert (KEEP : ~ (so_usable o <= 0 /\ top < tr_min r) ->
     (tr_min r = supply /\ tr_deficit r = 0%Z /\ forall i t, ~ short_minute supply (p ++ [o]) i t) \/
     (exists i k, worst_minute supply (p ++ [o]) i (tr_min r) /\ on_since (p ++ [o]) i k /\ tr_deficit r = (Z.of_nat i - Z.of_nat k)%Z)).
  { intro NO. destruct W as [(M & D & N)|(i0 & k0 & [w1 w2 w3] & O0 & D)].
    - left. split; [exact M|]. split; [exact D|]. intros j t H. destruct (Nat.eq_dec j i) as [->|NE]; [|exact (N j t (OLD _ _ H NE))].
      apply SN in H. destruct H as (U & _ & T). apply NO. rewrite M. auto.
    - right. exists i0, k0. pose proof (short_in _ _ _ w1) as L0. split; [|split; [apply on_since_app; assumption|exact D]]. split.
      + exact (proj2 (short_app p [o] i0 (tr_min r) L0) w1).
      + intros j t H. destruct (Nat.eq_dec j i) as [->|NE]; [|exact (w2 j t (OLD _ _ H NE))]. apply SN in H. destruct H as (U & -> & T). apply Qnot_lt_le. intro F. apply NO. auto.
      + intros j t H J. apply (w3 j t); [|exact J]. apply OLD; [exact H|fold i in L0; lia]. }
  destruct (Qle_bool (so_usable o) 0) eqn:U.
  - apply Qle_bool_iff in U. destruct (qltb top (tr_min r)) eqn:T.
    + apply qltb_true in T. split; cbn [tr_on tr_start tr_min tr_deficit]; [exact RON|exact RST|]. right. exists i, k'.
      assert (TS : top < supply).
      { destruct W as [(M & _)|(i0 & k0 & [(o0 & _ & _ & _ & w1) _ _] & _)]; [rewrite <- M; exact T|lra]. }
      split; [|split; [exact OS|reflexivity]]. split.
      * apply SN. auto.
      * intros j t H. destruct (Nat.eq_dec j i) as [->|NE]; [apply SN in H; destruct H as (_ & -> & _); apply Qle_refl|]. apply OLD in H; [|exact NE].
        destruct W as [(_ & _ & N)|(i0 & k0 & [_ w2 _] & _)]; [destruct (N _ _ H)|]. specialize (w2 _ _ H). lra.
      * intros j t H J. apply OLD in H; [|lia]. destruct W as [(_ & _ & N)|(i0 & k0 & [_ w2 _] & _)]; [destruct (N _ _ H)|]. specialize (w2 _ _ H). lra.
    + split; cbn [tr_on tr_start tr_min tr_deficit]; [exact RON|exact RST|]. apply KEEP. intros [_ F]. apply qltb_false in T. lra.
  - split; cbn [tr_on tr_start tr_min tr_deficit]; [exact RON|exact RST|]. apply KEEP. intros [F _]. apply Qle_bool_iff in F. congruence.
Qed.

Lemma seen_start : seen [] (mkTrial 0 supply false 0).
Proof.
  split; cbn.
  - split; [discriminate|]. intros (k & o & F & _). discriminate.
  - exists 0%nat. auto.
  - left. split; [reflexivity|]. split; [reflexivity|]. intros i t (o & E & _). destruct i; discriminate.
Qed.

Lemma trial_seen b : forall n p s r s' r', seen p r -> trial_loop n (Z.of_nat (length p)) b s r = Ok (s', r') ->
  exists outs, length outs = n /\ executed (mp_step b) 1 s (Z.of_nat (length p)) outs s' /\ seen (p ++ outs) r'.
Proof.
  induction n as [|n IH]; intros p s r s' r' SE H; cbn [trial_loop] in H.
  - apply ok_inj in H. apply pair_equal_spec in H. destruct H as [<- <-]. exists []. rewrite app_nil_r. cbn. auto.
  - destruct (bind_ok _ _ _ H) as ([s1 o] & E & H1). cbn [fst snd] in H1.
    assert (L : (Z.of_nat (length p) + 1 = Z.of_nat (length (p ++ [o])))%Z) by (rewrite app_length; cbn; lia).
    rewrite L in H1. destruct (IH _ _ _ _ _ (seen_step p r o SE) H1) as (outs & LO & EX & SE'). exists (o :: outs).
    split; [cbn; lia|]. rewrite <- L in EX. split; [cbn; exists s1; auto|]. rewrite <- app_assoc in SE'. exact SE'.
Qed.
End Trial.

Lemma once_round vol cap days b s pu inlet spu sched m go s' cap' :
  boosted vol cap s -> 0 < vol -> 0 < pu -> boost_once days b s cap pu inlet spu sched m = Ok (go, s', cap') ->
  exists outs s1, tried b days inlet spu s s1 outs /\
    ((go = false /\ s' = s1 /\ cap' = cap /\ round_says vol pu (ms_supply s) cap outs None) \/
     (go = true /\ round_says vol pu (ms_supply s) cap outs (Some cap') /\
      s' = mkMsys [wh_new (Some (PmNominal cap')) sched m] (ms_tank s1) (ms_supply s) (ms_storage s) (ms_return s) (ms_flow s))).
Proof.
  intros (V & h & EH & EP) V0 P0 H. unfold boost_once in H. destruct (bind_ok _ _ _ H) as (tk & E0 & H1). clear H.
  destruct (bind_ok _ _ _ H1) as ([s1 r] & E1 & H). clear H1.
  assert (B0 : boosted vol cap (mkMsys (ms_heaters s) tk (ms_supply s) (ms_storage s) (ms_return s) (ms_flow s))).
  { split; [cbn [ms_tank]; rewrite (sl_initialize_vol _ _ _ _ _ E0); exact V|]. exists h. auto. }
  destruct (trial_boosted _ _ _ _ _ _ _ _ _ B0 E1) as ((B1 & _) & T1 & T2 & T3 & T4). cbn [ms_supply ms_storage ms_return ms_flow] in *.
  destruct (trial_seen (ms_supply s) b _ [] _ _ _ _ (seen_start (ms_supply s)) E1) as (outs & LO & EX & [_ _ W]). cbn [app length] in *.
  exists outs, s1. split; [exists tk; split; [exact E0|]; split; [rewrite LO; lia|exact EX]|].
  destruct W as [(M & D & N)|(i & k & W & O & D)].
  - rewrite D in H. change (0 <? 0)%Z with false in H. cbn match in H. apply ok_inj in H. apply pair_equal_spec in H. destruct H as [H <-]. apply pair_equal_spec in H. destruct H as [<- <-].
    left. repeat split. apply says_never_short. exact N.
  - rewrite D in H. pose proof (proj1 O) as KI. destruct (Nat.eq_dec k i) as [->|NE].
    + rewrite Z.sub_diag in H. change (0 <? 0)%Z with false in H. cbn match in H. apply ok_inj in H. apply pair_equal_spec in H. destruct H as [H <-]. apply pair_equal_spec in H. destruct H as [<- <-].
      left. repeat split. apply (says_just_on _ _ _ _ _ i (tr_min r)); assumption.
    + replace (0 <? Z.of_nat i - Z.of_nat k)%Z with true in H by lia. cbv zeta in H. rewrite B1 in H.
      assert (TM : tr_min r < ms_supply s) by (destruct W as [(o0 & _ & _ & _ & w) _ _]; exact w).
      assert (IP : 0 < vol * pu * rho_cp * (ms_supply s - tr_min r) / 1000).
      { apply qdiv_pos; [|reflexivity]. assert (RP : 0 < rho_cp) by reflexivity. repeat apply qmul_pos; try assumption; lra. }
      pose proof (proj2 (qltb_true _ _) IP) as IPB. rewrite IPB in H.
      destruct (bind_ok _ _ _ H) as (x & Ex & H1). clear H. apply ok_inj in H1. apply pair_equal_spec in H1. destruct H1 as [H1 <-]. apply pair_equal_spec in H1. destruct H1 as [<- <-].
      destruct (qdiv_inv _ _ _ Ex) as [NZ ->]. right. split; [reflexivity|]. split.
      * apply (says_more _ _ _ _ _ i k (tr_min r)); [exact W|exact O|lia|]. unfold missing_kbtuh. reflexivity.
      * rewrite T1, T2, T3, T4. reflexivity.
Qed.

Lemma loop_search vol days b pu inlet spu sched m : 0 < vol -> 0 < pu -> forall iters s cap s' cap',
  boosted vol cap s -> boost_loop iters days b s cap pu inlet spu sched m = Ok (s', cap') ->
  boost_search b days vol pu inlet spu sched m iters s cap s' cap'.
Proof.
  intros V0 P0. induction iters as [|k IH]; intros s cap s' cap' B H; cbn [boost_loop] in H.
  - apply ok_inj in H. apply pair_equal_spec in H. destruct H as [<- <-]. constructor.
  - destruct (bind_ok _ _ _ H) as ([[go s1] c1] & E & H1). clear H. destruct (boost_once_boosted _ _ _ _ _ _ _ _ _ _ _ _ _ B E) as (B1 & _).
    destruct (once_round _ _ _ _ _ _ _ _ _ _ _ _ _ B V0 P0 E) as (outs & s2 & T & [(-> & -> & -> & R)|(-> & R & E2)]).
    + apply ok_inj in H1. apply pair_equal_spec in H1. destruct H1 as [<- <-]. apply (search_enough _ _ _ _ _ _ _ _ _ _ _ _ outs); assumption.
    + apply (search_more _ _ _ _ _ _ _ _ _ _ s2 _ c1 outs); try assumption. rewrite <- E2. apply IH; assumption.
Qed.
