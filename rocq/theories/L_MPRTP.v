(** Lemmas about multi-pass systems. *)
From Verif Require Import Prelude M_StratifiedTank M_EnergyTank M_MixedTank L_MixedTank M_Building L_Building M_Heater M_Sizing M_SimRun M_Step M_MPRTP S_MPRTP.
Open Scope Q_scope.

Lemma valve_inv load flow cold supply ret hot d i : mixing_valve load flow cold supply ret hot = Ok (d, i) ->
  ~ hot == supply /\
  ((flow * (supply - ret) / (hot - supply) < load /\ ~ hot == cold /\ i = cold /\
    d * (hot - cold) == heat_taken load flow cold supply ret) \/
   (load <= flow * (supply - ret) / (hot - supply) /\ ~ hot == ret /\ ~ d == 0 /\
    d * (hot - ret) == (load + flow) * (supply - ret) /\ i * d == load * cold + (d - load) * ret)).
Proof.
  unfold mixing_valve. intro H. destruct (bind_ok _ _ _ H) as (cr & Ec & H1). clear H.
  destruct (qdiv_inv _ _ _ Ec) as [N ->]. pose proof rho_pos as RP.
  assert (NS : ~ hot - supply == 0) by (intro X; apply N; rewrite X; ring).
  assert (CE : flow * rho_cp * (supply - ret) / (rho_cp * (hot - supply)) == flow * (supply - ret) / (hot - supply)) by (field; split; lra).
  split; [lra|]. destruct (qltb _ load) eqn:E; qbool; rewrite CE in E.
  - left. destruct (bind_ok _ _ _ H1) as (a & Ea & H2). destruct (bind_ok _ _ _ H2) as (c & Eb & H3). apply ok_inj in H3. apply pair_equal_spec in H3. destruct H3 as [<- <-].
    destruct (qdiv_inv _ _ _ Ea) as [NC ->]. destruct (qdiv_inv _ _ _ Eb) as [_ ->]. split; [exact E|]. split; [lra|]. split; [reflexivity|]. unfold heat_taken. field. lra.
  - right. destruct (bind_ok _ _ _ H1) as (a & Ea & H2). cbv zeta in H2. destruct (bind_ok _ _ _ H2) as (c & Eb & H3). apply ok_inj in H3. apply pair_equal_spec in H3. destruct H3 as [<- <-].
    destruct (qdiv_inv _ _ _ Ea) as [NC ->]. destruct (qdiv_inv _ _ _ Eb) as [ND ->]. split; [exact E|]. split; [lra|]. split; [exact ND|].
    split; [field; lra|apply qdiv_mul; exact ND].
Qed.

Lemma crit_iff load flow supply ret hot : supply < hot ->
  (flow * (supply - ret) / (hot - supply) < load <-> flow * (supply - ret) < load * (hot - supply)).
Proof. intro H. apply qdiv_lt_iff. lra. Qed.

Lemma valve_heat load flow cold supply ret hot d i : mixing_valve load flow cold supply ret hot = Ok (d, i) ->
  d * (hot - i) == heat_taken load flow cold supply ret.
Proof.
  intro H. destruct (valve_inv _ _ _ _ _ _ _ _ H) as [_ [(_ & _ & -> & E)|(_ & _ & _ & E1 & E2)]]; [exact E|].
  unfold heat_taken. assert (X : d * (hot - i) == d * (hot - ret) + d * ret - i * d) by ring. rewrite X, E1, E2. ring.
Qed.

Lemma valve_total load flow cold supply ret hot : ordinary load flow cold supply ret hot ->
  (0 < load \/ 0 < flow * (supply - ret)) -> exists d i, mixing_valve load flow cold supply ret hot = Ok (d, i).
Proof.
  intros [A B C C' D E] P. pose proof rho_pos as RP. unfold mixing_valve.
  rewrite qdiv_ok by (intro X; assert (0 < rho_cp * (hot - supply)) by (apply qmul_pos; lra); lra). cbn [bind].
  destruct (qltb _ load) eqn:L; qbool.
  - rewrite !qdiv_ok by lra. cbn [bind]. eexists. eexists. reflexivity.
  - rewrite (qdiv_ok (supply - ret)) by lra. cbn [bind]. cbv zeta.
    assert (FP : 0 < flow * (supply - ret)).
    { destruct P as [P|P]; [|exact P]. destruct (Qlt_le_dec 0 (flow * (supply - ret))) as [G|G]; [exact G|].
      assert (Z : flow * (supply - ret) == 0) by (pose proof (qmul_nonneg flow (supply - ret) B ltac:(lra)); lra).
      assert (X : flow * rho_cp * (supply - ret) / (rho_cp * (hot - supply)) == 0).
      { assert (Y : flow * rho_cp * (supply - ret) == 0) by (rewrite <- Qmult_assoc, (Qmult_comm rho_cp), Qmult_assoc, Z; ring). rewrite Y. unfold Qdiv. ring. }
      rewrite X in L. lra. }
    assert (SR : 0 < supply - ret).
    { destruct (Qlt_le_dec 0 (supply - ret)) as [G|G]; [exact G|]. assert (supply - ret == 0) by lra. rewrite H in FP. lra. }
    assert (FQ : 0 < flow).
    { destruct (Qlt_le_dec 0 flow) as [G|G]; [exact G|]. assert (Z : flow == 0) by lra. rewrite Z in FP. lra. }
    rewrite qdiv_ok; [cbn [bind]; eexists; eexists; reflexivity|].
    assert (0 < (load + flow) * ((supply - ret) / (hot - ret))) by (apply qmul_pos; [lra|apply qdiv_pos; lra]). lra.
Qed.

(** In ordinary operation. *)
Lemma valve_ordinary load flow cold supply ret hot d i : ordinary load flow cold supply ret hot ->
  mixing_valve load flow cold supply ret hot = Ok (d, i) ->
  0 < d /\ cold <= i <= ret /\
  (flow * (supply - ret) <= load * (hot - supply) -> d * (hot - cold) == heat_taken load flow cold supply ret /\ i == cold /\ d <= load) /\
  (load * (hot - supply) <= flow * (supply - ret) -> d * (hot - ret) == (load + flow) * (supply - ret) /\ load <= d).
Proof.
  intros [A B C C' D E] H. pose proof (crit_iff load flow supply ret hot E) as CI.
  pose proof (qmul_nonneg flow (supply - ret) B ltac:(lra)) as FN.
  destruct (valve_inv _ _ _ _ _ _ _ _ H) as [_ [(L & N1 & -> & E1)|(L & N1 & N2 & E1 & E2)]].
  - apply CI in L.
    assert (LP : 0 < load). { destruct (Qlt_le_dec 0 load) as [G|G]; [exact G|]. assert (Z : load == 0) by lra. rewrite Z in L. lra. }
    pose proof (qmul_pos load (supply - cold) LP ltac:(lra)) as P1.
    assert (DP : 0 < d) by (apply Qmult_lt_r with (hot - cold); [lra|]; rewrite E1; unfold heat_taken; lra).
    split; [exact DP|]. split; [lra|]. split; [|intro X; lra]. intros _. split; [exact E1|]. split; [reflexivity|].
    apply Qmult_le_r with (hot - cold); [lra|]. rewrite E1. unfold heat_taken. 
    assert (X : load * (hot - cold) == load * (hot - supply) + load * (supply - cold)) by ring. lra.
  - assert (L' : load * (hot - supply) <= flow * (supply - ret)) by (apply Qnot_lt_le; intro X; apply CI in X; lra).
    assert (DN : 0 <= d) by (apply Qmult_le_r with (hot - ret); [lra|]; rewrite E1; assert (0 <= (load + flow) * (supply - ret)) by (apply qmul_nonneg; lra); lra).
    assert (DP : 0 < d) by (destruct (Qlt_le_dec 0 d) as [G|G]; [exact G|exfalso; apply N2; lra]).
    assert (DL : load <= d).
    { apply Qmult_le_r with (hot - ret); [lra|]. rewrite E1.
      assert (X : load * (hot - ret) == load * (hot - supply) + load * (supply - ret)) by ring.
      assert (Y : (load + flow) * (supply - ret) == load * (supply - ret) + flow * (supply - ret)) by ring. lra. }
    assert (IR : cold <= i <= ret).
    { pose proof (qmul_nonneg (d - load) (ret - cold) ltac:(lra) ltac:(lra)) as P1. pose proof (qmul_nonneg load (ret - cold) A ltac:(lra)) as P2.
      split; apply Qmult_le_r with d; try exact DP; rewrite E2.
      - assert (X : load * cold + (d - load) * ret - cold * d == (d - load) * (ret - cold)) by ring. lra.
      - assert (X : ret * d - (load * cold + (d - load) * ret) == load * (ret - cold)) by ring. lra. }
    split; [exact DP|]. split; [exact IR|]. split; [|intros _; split; assumption].
    intro L2. assert (EQ : load * (hot - supply) == flow * (supply - ret)) by lra.
    assert (DE : d == load).
    { apply Qmult_inj_r with (hot - ret); [lra|]. rewrite E1.
      assert (X : load * (hot - ret) == load * (hot - supply) + load * (supply - ret)) by ring.
      assert (Y : (load + flow) * (supply - ret) == load * (supply - ret) + flow * (supply - ret)) by ring. lra. }
    assert (IC : i == cold).
    { apply Qmult_inj_r with d; [exact N2|]. rewrite E2, DE. ring. }
    split; [|split; [exact IC|lra]]. unfold heat_taken. rewrite DE.
    assert (X : load * (hot - cold) == load * (hot - supply) + load * (supply - cold)) by ring. lra.
Qed.

Lemma valve_err load flow cold supply ret hot e : mixing_valve load flow cold supply ret hot = Err e -> e = ZeroDivisionError.
Proof.
  unfold mixing_valve, qdiv. repeat (match goal with |- context [if ?c then _ else _] => destruct c end; cbn [bind]); congruence.
Qed.

Lemma valve_err_iff load flow cold supply ret hot : mixing_valve load flow cold supply ret hot = Err ZeroDivisionError <->
  hot == supply \/
  (~ hot == supply /\ flow * (supply - ret) / (hot - supply) < load /\ hot == cold) \/
  (~ hot == supply /\ load <= flow * (supply - ret) / (hot - supply) /\ (hot == ret \/ (load + flow) * (supply - ret) == 0)).
Proof.
  pose proof rho_pos as RP. split.
  - intro H. destruct (Qeq_dec hot supply) as [Z|Z]; [left; exact Z|]. right.
    assert (CE : flow * rho_cp * (supply - ret) / (rho_cp * (hot - supply)) == flow * (supply - ret) / (hot - supply)) by (field; split; lra).
    unfold mixing_valve in H. rewrite qdiv_ok in H.
    2: { intro X. apply Qmult_integral in X. destruct X as [X|X]; lra. }
    cbn [bind] in H. destruct (qltb _ load) eqn:L; qbool; rewrite CE in L.
    + left. split; [exact Z|]. split; [exact L|]. destruct (Qeq_dec hot cold) as [Y|Y]; [exact Y|]. rewrite !qdiv_ok in H by lra. discriminate.
    + right. split; [exact Z|]. split; [exact L|]. destruct (Qeq_dec hot ret) as [Y|Y]; [left; exact Y|right]. rewrite (qdiv_ok (supply - ret)) in H by lra. cbn [bind] in H. cbv zeta in H.
      destruct (Qeq_dec ((load + flow) * (supply - ret)) 0) as [W|W]; [exact W|]. rewrite qdiv_ok in H; [discriminate|].
      intro X. apply W. assert (X2 : (load + flow) * (supply - ret) == (load + flow) * ((supply - ret) / (hot - ret)) * (hot - ret)) by (field; lra). rewrite X2, X. ring.
  - intro C. destruct (mixing_valve load flow cold supply ret hot) as [[d i]|e] eqn:E; [|f_equal; exact (valve_err _ _ _ _ _ _ _ E)].
    exfalso. destruct (valve_inv _ _ _ _ _ _ _ _ E) as [N [(L & N1 & -> & E1)|(L & N1 & N2 & E1 & E2)]].
    + destruct C as [C|[(_ & _ & C)|(_ & C & _)]]; [exact (N C)|exact (N1 C)|lra].
    + destruct C as [C|[(_ & C & _)|(_ & _ & [C|C])]]; [exact (N C)|lra|exact (N1 C)|].
      apply N2. rewrite C in E1. apply Qmult_integral in E1. destruct E1 as [X|X]; [exact X|exfalso; lra].
Qed.

(** ** Growing slug *)

Lemma qsum_snoc l x : qsum (l ++ [x]) == qsum l + x.
Proof. induction l as [|y l IH]; cbn; [ring|rewrite IH; ring]. Qed.

Section Grow.
Variables (draw inlet : nat -> Q) (q storage : Q).
Let BV := batch_vol draw.
Let BH := batch_heat draw inlet.

Lemma batch_vol_S a n : BV a (S n) == BV a n + draw (a + n)%nat.
Proof. unfold BV, batch_vol. rewrite seq_S, map_app. cbn [map]. apply qsum_snoc. Qed.
Lemma batch_heat_S a n : BH a (S n) == BH a n + draw (a + n)%nat * inlet (a + n)%nat.
Proof. unfold BH, batch_heat. rewrite seq_S, map_app. cbn [map]. rewrite qsum_snoc. reflexivity. Qed.
Lemma batch_vol_pos a n : (forall i, (i < a + n)%nat -> 0 < draw i) -> (0 < n)%nat -> 0 < BV a n.
Proof.
  intros P N. induction n as [|n IH]; [lia|]. rewrite batch_vol_S. pose proof (P (a + n)%nat ltac:(lia)). destruct n as [|n].
  - unfold BV, batch_vol. cbn. lra.
  - assert (0 < BV a (S n)) by (apply IH; [intros i I; apply P; lia|lia]). lra.
Qed.

(** The loop's state [g] after minute [t]: the current batch began in minute [a]. *)
Record grown (t : nat) (g : gslug) (a : nat) : Prop := {
  gr_le : (a <= t)%nat;
  gr_wait : batch_waits draw inlet q storage a (t - a);
  gr_vol : gs_vol g == BV a (t - a);
  gr_temp : (a < t)%nat -> gs_temp g * gs_vol g == BH a (t - a) + qz (Z.of_nat (t - a)) * q / rho_cp;
  gr_upper : forall a' n', (a' + n' <= t)%nat -> batch_waits draw inlet q storage a' n' -> BV a' n' <= gs_max g;
  gr_attained : gs_max g == 0 \/ exists a' n', (0 < n')%nat /\ (a' + n' <= t)%nat /\ batch_waits draw inlet q storage a' n' /\ gs_max g == BV a' n' }.

(** Batches do not overlap. *)
Lemma no_overlap y : batch_begins draw inlet q storage y -> forall d k, (d < y < d + k)%nat ->
  (forall j, (0 < j < k)%nat -> ~ batch_served draw inlet q storage d j) -> batch_begins draw inlet q storage d -> False.
Proof.
  induction (lt_wf y) as [y _ IHy]. intros By. inversion By as [E0|e j Be J1 J2 J3 E]; intros d k R W Bd; [lia|].
  subst y. destruct (Nat.lt_trichotomy e d) as [C|[C|C]].
  - destruct (Nat.eq_dec (e + j) d); [lia|]. apply (IHy d ltac:(lia) Bd e j); [lia|exact J2|exact Be].
  - subst e. apply (W j); [lia|exact J3].
  - apply (IHy e ltac:(lia) Be d k); [lia|exact W|exact Bd].
Qed.

Lemma waits_same t a a' n' : (a <= t)%nat -> batch_waits draw inlet q storage a (t - a) -> (0 < n')%nat -> (a' + n' = S t)%nat ->
  batch_waits draw inlet q storage a' n' -> a' = a.
Proof.
  intros L [A1 A2] N E [B1 B2]. destruct (Nat.lt_trichotomy a' a) as [C|[C|C]]; [exfalso|exact C|exfalso].
  - apply (no_overlap a A1 a' n'); [lia|intros j J; apply B2; lia|exact B1].
  - apply (no_overlap a' B1 a (S (t - a))); [lia|intros j J; apply A2; lia|exact A1].
Qed.

Lemma grow_step t g a cold h g1 : h * 1000 == q -> grown t g a -> (forall i, (i <= t)%nat -> 0 < draw i) ->
  grow_minute cold storage h g (draw t) (inlet t) = Ok g1 -> exists a1, grown (S t) g1 a1.
Proof.
  intros HQ [G1 G2 G3 G4 G5 G6] P H. pose proof rho_pos as RP.
  pose proof (P t (le_n t)) as DP.
  unfold grow_minute in H. destruct (qltb 0 (draw t)) eqn:D; qbool; [|lra].
  assert (ST : exists v1 t2, 0 < v1 /\ v1 == BV a (S (t - a)) /\ t2 * v1 == BH a (S (t - a)) + qz (Z.of_nat (S (t - a))) * q / rho_cp /\
     (let v3 := if Qle_bool storage t2 then 0 else v1 in
      let t3 := if Qle_bool storage t2 then cold else t2 in
      Ok (mkGslug v3 t3 (if qltb (gs_max g) v3 then v3 else gs_max g))) = Ok g1).
  { assert (QS : forall x y n, x == y + qz (Z.of_nat n) * q / rho_cp -> x + q / rho_cp == y + qz (Z.of_nat (S n)) * q / rho_cp).
    { intros x y n ->. rewrite Nat2Z.inj_succ. unfold qz. rewrite <- Z.add_1_r, inject_Z_plus. field. lra. }
    assert (EA : (a + (t - a) = t)%nat) by lia.
    destruct (Qle_bool (gs_vol g) 0) eqn:V; qbool.
    - cbn [bind] in H. destruct (qltb 0 (draw t)) eqn:D2; qbool; [|lra].
      rewrite qdiv_ok in H by (intro X; apply Qmult_integral in X; destruct X; lra). cbn [bind] in H. cbv zeta in H.
      assert (TA : (t - a = 0)%nat).
      { destruct (Nat.eq_dec (t - a) 0) as [E|E]; [exact E|]. exfalso. rewrite G3 in V. assert (0 < BV a (t - a)) by (apply batch_vol_pos; [intros i I; apply P; lia|lia]). lra. }
      eexists. eexists. split; [exact DP|]. split; [|split; [|exact H]].
      + rewrite batch_vol_S, EA, TA. unfold BV, batch_vol. cbn. ring.
      + rewrite batch_heat_S, EA. assert (X : (inlet t + h * 1000 / (draw t * rho_cp)) * draw t == draw t * inlet t + q / rho_cp).
        { rewrite HQ. field. split; lra. }
        rewrite X. apply QS. rewrite TA. change (qz (Z.of_nat 0)) with 0. unfold BH, batch_heat. cbn [seq map qsum fold_right]. field. lra.
    - destruct (bind_ok _ _ _ H) as (vt & E1 & H1). clear H. destruct (bind_ok _ _ _ E1) as (x & Ex & E2). apply ok_inj in E2. subst vt. 
      destruct (qdiv_inv _ _ _ Ex) as [NX ->]. destruct (qltb 0 (gs_vol g + draw t)) eqn:D2; qbool; [|lra].
      rewrite qdiv_ok in H1 by (intro X; apply Qmult_integral in X; destruct X; lra). cbn [bind] in H1. cbv zeta in H1.
      assert (TA : (a < t)%nat).
      { destruct (Nat.eq_dec (t - a) 0) as [E|E]; [|lia]. exfalso. rewrite G3, E in V. unfold BV, batch_vol in V. cbn in V. lra. }
      specialize (G4 TA). eexists. eexists. split; [exact D2|]. split; [|split; [|exact H1]].
      + rewrite batch_vol_S, EA, G3. reflexivity.
      + rewrite batch_heat_S, EA.
        assert (X : ((gs_vol g * gs_temp g + draw t * inlet t) / (gs_vol g + draw t) + h * 1000 / ((gs_vol g + draw t) * rho_cp)) * (gs_vol g + draw t)
                 == gs_temp g * gs_vol g + draw t * inlet t + q / rho_cp).
        { rewrite HQ. field. split; lra. }
        rewrite X. apply QS. rewrite G4. ring. }
  destruct ST as (v1 & t2 & VP & EV & ET & HH). clear H.
  assert (SS : (S t - a = S (t - a))%nat) by lia.
  assert (SV : batch_served draw inlet q storage a (S (t - a)) <-> storage <= t2).
  { unfold batch_served. fold BV. fold BH. rewrite <- ET, <- EV. split; intro X; [apply Qmult_le_r with v1; assumption|apply Qmult_le_compat_r; [exact X|lra]]. }
  assert (WB : forall k, (0 < k <= t - a)%nat -> ~ batch_served draw inlet q storage a k) by exact (proj2 G2).
  assert (M0 : 0 <= gs_max g).
  { pose proof (G5 0%nat 0%nat ltac:(lia)) as X. unfold BV, batch_vol in X. cbn in X. apply X. split; [constructor|intros k K; lia]. }
  destruct (Qle_bool storage t2) eqn:R; qbool; apply ok_inj in HH; subst g1.
  - (* served *)
    exists (S t). assert (BS : batch_begins draw inlet q storage (S t)).
    { replace (S t) with (a + S (t - a))%nat by lia. apply begins_next; [exact (proj1 G2)|lia|intros k K; apply WB; lia|apply SV; exact R]. }
    assert (MX : (if qltb (gs_max g) 0 then 0 else gs_max g) = gs_max g) by (destruct (qltb (gs_max g) 0) eqn:M; qbool; [lra|reflexivity]).
    constructor; cbn [gs_vol gs_temp gs_max]; rewrite ?MX.
    + lia.
    + replace (S t - S t)%nat with 0%nat by lia. split; [exact BS|]. intros k K. lia.
    + replace (S t - S t)%nat with 0%nat by lia. reflexivity.
    + lia.
    + intros a' n' L W. destruct n' as [|n']; [exact M0|]. destruct (Nat.eq_dec (a' + S n') (S t)) as [E|E]; [|apply G5; [lia|exact W]].
      exfalso. assert (a' = a) by (apply (waits_same t a a' (S n')); [exact G1|exact G2|lia|exact E|exact W]). subst a'.
      apply (proj2 W (S n')); [lia|]. replace (S n') with (S (t - a)) by lia. apply SV. exact R.
    + destruct G6 as [G6|(a' & n' & X1 & X2 & X3)]; [left; exact G6|right; exists a', n'; split; [exact X1|split; [lia|exact X3]]].
  - (* waiting *)
    exists a. assert (WA : batch_waits draw inlet q storage a (S (t - a))).
    { split; [exact (proj1 G2)|]. intros k K. destruct (Nat.eq_dec k (S (t - a))) as [->|N]; [rewrite SV; lra|apply WB; lia]. }
    constructor; cbn [gs_vol gs_temp gs_max]; rewrite ?SS.
    + lia.
    + exact WA.
    + exact EV.
    + intros _. exact ET.
    + intros a' n' L W. destruct n' as [|n']; [unfold BV, batch_vol; cbn; destruct (qltb (gs_max g) v1) eqn:M; qbool; lra|].
      destruct (Nat.eq_dec (a' + S n') (S t)) as [E|E].
      * assert (a' = a) by (apply (waits_same t a a' (S n')); [exact G1|exact G2|lia|exact E|exact W]). subst a'.
        replace (S n') with (S (t - a)) by lia. rewrite <- EV. destruct (qltb (gs_max g) v1) eqn:M; qbool; lra.
      * assert (X : BV a' (S n') <= gs_max g) by (apply G5; [lia|exact W]). destruct (qltb (gs_max g) v1) eqn:M; qbool; lra.
    + destruct (qltb (gs_max g) v1) eqn:M; qbool.
      * right. exists a, (S (t - a)). split; [lia|]. split; [lia|]. split; [exact WA|exact EV].
      * destruct G6 as [G6|(a' & n' & X1 & X2 & X3)]; [left; exact G6|right; exists a', n'; split; [exact X1|split; [lia|exact X3]]].
Qed.

Lemma grow_loop_grown b flow cold supply ret hot h : h * 1000 == q -> forall n t g a g',
  grown t g a ->
  (forall i, (i < t + n)%nat -> exists d, bd_load b (Z.of_nat i) 1 false = Ok d /\
     mixing_valve d flow cold supply ret hot = Ok (draw i, inlet i)) ->
  (forall i, (i < t + n)%nat -> 0 < draw i) ->
  grow_loop n (Z.of_nat t) b flow cold supply ret storage hot h g = Ok g' -> exists a', grown (t + n) g' a'.
Proof.
  intros HQ n. induction n as [|n IH]; intros t g a g' G D P H.
  - cbn [grow_loop] in H. apply ok_inj in H. subst g'. exists a. replace (t + 0)%nat with t by lia. exact G.
  - cbn [grow_loop] in H. destruct (D t ltac:(lia)) as (d & Ed & Em). rewrite Ed in H. cbn [bind] in H. rewrite Em in H. cbn [bind fst snd] in H.
    destruct (bind_ok _ _ _ H) as (g1 & E1 & H1). destruct (grow_step t g a cold h g1 HQ G ltac:(intros i I; apply P; lia) E1) as (a1 & G1).
    replace (Z.of_nat t + 1)%Z with (Z.of_nat (S t)) in H1 by lia. replace (t + S n)%nat with (S t + n)%nat in * by lia.
    exact (IH (S t) g1 a1 g' G1 D P H1).
Qed.
End Grow.

Lemma grown_start draw inlet q storage cold : grown draw inlet q storage 0 (mkGslug 0 cold 0) 0.
Proof.
  constructor; cbn [gs_vol gs_temp gs_max]; try lia.
  - split; [constructor|intros k K; lia].
  - reflexivity.
  - intros a n L _. replace n with 0%nat by lia. unfold batch_vol. cbn. discriminate.
  - left. reflexivity.
Qed.

Lemma qmul_1_eq x : x * 1 = x.
Proof. destruct x as [n d]. unfold Qmult. cbn. rewrite Z.mul_1_r, Pos.mul_1_r. reflexivity. Qed.

Lemma grow_loop_total b flow cold supply ret storage hot h :
  (forall t, exists d, bd_load b t 1 false = Ok d /\ exists x i, mixing_valve d flow cold supply ret hot = Ok (x, i)) ->
  forall n t g, exists g', grow_loop n t b flow cold supply ret storage hot h g = Ok g'.
Proof.
  intros D n. induction n as [|n IH]; intros t g; [eexists; reflexivity|]. cbn [grow_loop].
  destruct (D t) as (d & -> & x & i & E). cbn [bind]. rewrite E. cbn [bind fst snd].
  assert (M : exists g1, grow_minute cold storage h g x i = Ok g1).
  { pose proof rho_pos as RP. unfold grow_minute. destruct (qltb 0 x) eqn:X; qbool.
    - destruct (Qle_bool (gs_vol g) 0) eqn:V; qbool.
      + cbn [bind]. destruct (qltb 0 x); [|eexists; reflexivity]. rewrite qdiv_ok by (intro Y; apply Qmult_integral in Y; destruct Y; lra). eexists. reflexivity.
      + rewrite qdiv_ok by lra. cbn [bind]. destruct (qltb 0 (gs_vol g + x)) eqn:Y; qbool; [|eexists; reflexivity]. rewrite qdiv_ok by (intro Z; apply Qmult_integral in Z; destruct Z; lra). eexists. reflexivity.
    - cbn [bind]. destruct (qltb 0 (gs_vol g)) eqn:Y; qbool; [|eexists; reflexivity]. rewrite qdiv_ok by (intro Z; apply Qmult_integral in Z; destruct Z; lra). eexists. reflexivity. }
  destruct M as (g1 & ->). cbn [bind]. apply IH.
Qed.
