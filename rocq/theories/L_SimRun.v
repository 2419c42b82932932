(** Proofs about the simulation loop. *)
From Verif Require Import Prelude M_Building S_Building M_Utility S_Utility M_Heater M_SimRun S_SimRun.
From Verif Require Import L_Heater L_Building L_Utility L_Utility2.

Lemma somes_app {A} (a b : list (option A)) : somes (a ++ b) = somes a ++ somes b.
Proof. induction a as [|[x|] a IH]; cbn; rewrite ?IH; reflexivity. Qed.

Lemma append_some_somes l x : append_some l x = l ++ somes [x].
Proof. destruct x; cbn; [reflexivity|symmetry; apply app_nil_r]. Qed.

Lemma record_nodes_ok : forall temps cols cols', record_nodes cols temps = Ok cols' ->
  (length temps <= length cols)%nat /\ length cols' = length cols /\
  forall k c, nth_error cols k = Some c -> nth_error cols' k = Some (c ++ somes [nth_error temps k]).
Proof.
  induction temps as [|t ts IH]; intros cols cols' H.
  - cbn in H. destruct cols; inversion H; subst; cbn; (split; [lia|]); (split; [reflexivity|]);
      intros k c' E; destruct k; cbn; cbn in E; rewrite ?app_nil_r; try exact E; discriminate.
  - destruct cols as [|c cs]; cbn in H; [discriminate|].
    destruct (bind_ok _ _ _ H) as (r & E & H1). inversion H1; subst. destruct (IH _ _ E) as (A & B & C).
    cbn [length]. split; [lia|]. split; [lia|]. intros [|k] c' E'; cbn in *.
    + inversion E'; subst. reflexivity.
    + apply C. exact E'.
Qed.

Lemma record_nodes_total : forall temps cols, (length temps <= length cols)%nat -> exists c, record_nodes cols temps = Ok c.
Proof.
  induction temps as [|t ts IH]; intros cols H; [cbn; destruct cols; eexists; reflexivity|].
  destruct cols as [|c cs]; cbn in H; [lia|]. destruct (IH cs ltac:(lia)) as (r & E). cbn. rewrite E. eexists; reflexivity.
Qed.

Lemma outages_app a b : outages (a ++ b) = outages a ++ outages b.
Proof. apply filter_app. Qed.

Lemma record_step_inv outs r o r1 : recorded outs r -> length (sr_temps r) = 6%nat -> record_timestep r o = Ok r1 ->
  let r2 := if Qle_bool (so_usable o) 0 then record_outage r1 (sr_iv r) else r1 in
  recorded (outs ++ [o]) r2 /\ length (sr_temps r2) = 6%nat /\
  sr_iv r2 = sr_iv r /\ sr_thr r2 = sr_thr r /\ sr_max r2 = sr_max r /\ sr_consec r2 = sr_consec r /\
  sr_stopped r2 = sr_stopped r /\ sr_duration r2 = sr_duration r /\ sr_show_tm r2 = sr_show_tm r.
Proof.
  intros R L H. unfold record_timestep in H. destruct (bind_ok _ _ _ H) as (nodes & E & H1). apply ok_inj in H1.
  destruct (record_nodes_ok _ _ _ E) as (N1 & N2 & N3).
  cbv zeta. split.
  - destruct R as [R1 R2 R3 R4 R5 R6 R7 RT R8 R9 R10 RO]. constructor; subst r1; destruct (Qle_bool (so_usable o) 0) eqn:B;
      cbn [sr_demand sr_usable sr_output sr_power sr_oat sr_inlet sr_mode sr_temps sr_tm_temp sr_tm_output sr_tm_kw sr_outage sr_iv record_outage sr_set];
      rewrite ?map_app, ?append_some_somes, ?somes_app; cbn [map]; try congruence.
    + intros k Hk. rewrite map_app, somes_app. cbn [map]. apply N3. apply RT. exact Hk.
    + intros k Hk. rewrite map_app, somes_app. cbn [map]. apply N3. apply RT. exact Hk.
    + rewrite outages_app, app_length, RO. cbn [outages filter]. rewrite B. cbn [length]. lia.
    + rewrite outages_app, app_length, RO. cbn [outages filter]. rewrite B. cbn [length]. lia.
  - subst r1. destruct (Qle_bool (so_usable o) 0); cbn; repeat (split; [congruence|]); reflexivity.
Qed.

(** Length of the run of too-cold steps at the end. *)
Fixpoint streak_rev (supply thr : Q) (l : list step_out) : nat :=
  match l with
  | [] => O
  | o :: r => if qltb (delivered o) (supply - thr) then S (streak_rev supply thr r) else O
  end.
Definition streak supply thr outs := streak_rev supply thr (rev outs).

Lemma streak_snoc supply thr outs o :
  streak supply thr (outs ++ [o]) = if qltb (delivered o) (supply - thr) then S (streak supply thr outs) else O.
Proof. unfold streak. rewrite rev_app_distr. reflexivity. Qed.

Lemma streak_run supply thr outs : forall k, (1 <= k)%nat -> (0 < length outs)%nat ->
  (cold_run supply thr outs (length outs - 1) k <-> (k <= streak supply thr outs)%nat).
Proof.
  induction outs as [|o outs IH] using rev_ind; intros k Hk HL; [cbn in HL; lia|].
  rewrite streak_snoc. rewrite app_length in *. cbn [length] in *.
  replace (length outs + 1 - 1)%nat with (length outs) by lia.
  assert (LAST : nth_error (outs ++ [o]) (length outs) = Some o).
  { rewrite nth_error_app2 by lia. rewrite Nat.sub_diag. reflexivity. }
  destruct (qltb (delivered o) (supply - thr)) eqn:B; qbool.
  - destruct (Nat.eq_dec k 1) as [->|Nk].
    + split; [intros; lia|]. intros _. split; [lia|]. intros j Hj. assert (j = length outs) by lia. subst j.
      exists o. split; [exact LAST|exact B].
    + destruct outs as [|o' outs'].
      * cbn [length streak streak_rev rev]. split; [intros [C _]; cbn in C; lia|]. unfold streak. cbn. intro; lia.
      * set (l := o' :: outs') in *. specialize (IH (k - 1)%nat ltac:(lia) ltac:(unfold l; cbn; lia)).
        assert (LL : (0 < length l)%nat) by (unfold l; cbn; lia).
        split.
        -- intros [C1 C2]. enough (k - 1 <= streak supply thr l)%nat by lia. apply IH. split; [lia|].
           intros j Hj. destruct (C2 j ltac:(lia)) as (x & E & T). exists x. split; [|exact T].
           rewrite nth_error_app1 in E by lia. exact E.
        -- intro C. assert (C' : (k - 1 <= streak supply thr l)%nat) by lia. apply IH in C'. destruct C' as [C1 C2].
           split; [lia|]. intros j Hj. destruct (Nat.eq_dec j (length l)) as [->|Nj].
           ++ exists o. split; [exact LAST|exact B].
           ++ destruct (C2 j ltac:(lia)) as (x & E & T). exists x. split; [|exact T]. rewrite nth_error_app1 by lia. exact E.
  - split; [|lia]. intros [C1 C2]. destruct (C2 (length outs) ltac:(lia)) as (x & E & T).
    rewrite LAST in E. inversion E; subst. unfold too_cold in T. lra.
Qed.

Lemma delivery_ok o d : delivery_temp o = Ok d -> d = delivered o.
Proof.
  unfold delivery_temp, delivered. intro H. destruct (bind_ok _ _ _ H) as (top & E & H1). apply ok_inj in H1. subst d.
  destruct (so_delivery o); [reflexivity|].
  unfold py_nth in E. cbv zeta in E.
  destruct (so_temps o) as [|x l] eqn:T; [cbn in E; discriminate|].
  set (ts := x :: l) in *. assert (N : ts <> []) by discriminate.
  replace (-1 <? 0)%Z with true in E by lia.
  assert (LT : (0 < Z.of_nat (length ts))%Z) by (unfold ts; cbn [length]; lia).
  replace ((-1 + Z.of_nat (length ts) <? 0) || (Z.of_nat (length ts) <=? -1 + Z.of_nat (length ts)))%Z%bool with false in E by lia.
  destruct (nth_error ts (Z.to_nat (-1 + Z.of_nat (length ts)))) as [y|] eqn:NE; [|discriminate]. inversion E; subst y.
  clearbody ts. pose proof (f_equal (@length Q) (app_removelast_last 0 N)) as LL. rewrite app_length in LL. cbn [length] in LL.
  rewrite (app_removelast_last 0 N) in NE at 1.
  rewrite nth_error_app2 in NE by lia.
  replace (Z.to_nat (-1 + Z.of_nat (length ts)) - length (removelast ts))%nat with 0%nat in NE by lia.
  cbn in NE. congruence.
Qed.

Lemma cold_run_prefix supply thr a b i k : (i < length a)%nat -> (cold_run supply thr (a ++ b) i k <-> cold_run supply thr a i k).
Proof.
  intro Hi. unfold cold_run. split; intros [H1 H2]; (split; [exact H1|]); intros j Hj;
    destruct (H2 j Hj) as (o & E & T); exists o; (split; [|exact T]).
  - rewrite nth_error_app1 in E by lia. exact E.
  - rewrite nth_error_app1 by lia. exact E.
Qed.

Lemma too_long_prefix supply thr maxm iv a b i : (i < length a)%nat ->
  (too_long supply thr maxm iv (a ++ b) i <-> too_long supply thr maxm iv a i).
Proof.
  intro Hi. unfold too_long. split; intros (k & H1 & H2 & H3); exists k; (split; [exact H1|]); (split; [|exact H3]);
    [apply (cold_run_prefix supply thr a b) in H2; assumption|apply cold_run_prefix; assumption].
Qed.

Lemma too_long_last supply thr maxm iv outs : (0 < iv)%Z -> (0 < length outs)%nat ->
  (too_long supply thr maxm iv outs (length outs - 1) <->
   (1 <= streak supply thr outs)%nat /\ (maxm < Z.of_nat (streak supply thr outs) * iv)%Z).
Proof.
  intros Hiv HL. split.
  - intros (k & H1 & H2 & H3). apply streak_run in H2; [|exact H1|exact HL]. split; [lia|]. nia.
  - intros [H1 H2]. exists (streak supply thr outs). split; [exact H1|]. split; [|exact H2].
    apply streak_run; [exact H1|exact HL|lia].
Qed.

Lemma sim_loop_inv {St} (stp : St -> Z -> Z -> res (St * step_out)) supply iv thr maxm : (0 < iv)%Z ->
  forall n i s r pre s' r',
  recorded pre r -> length (sr_temps r) = 6%nat -> sr_iv r = iv -> sr_thr r = thr -> sr_max r = maxm ->
  sr_stopped r = false -> sr_consec r = (Z.of_nat (streak supply thr pre) * iv)%Z ->
  sim_loop stp supply n i s r = Ok (s', r') ->
  exists outs, executed stp iv s i outs s' /\ recorded (pre ++ outs) r' /\ (length outs <= n)%nat /\
    sr_iv r' = iv /\ sr_duration r' = sr_duration r /\ sr_show_tm r' = sr_show_tm r /\ length (sr_temps r') = 6%nat /\
    (forall j, (length pre <= j)%nat -> (j + 1 < length (pre ++ outs))%nat -> ~ too_long supply thr maxm iv (pre ++ outs) j) /\
    (sr_stopped r' = true -> outs <> [] /\ too_long supply thr maxm iv (pre ++ outs) (length (pre ++ outs) - 1)) /\
    (sr_stopped r' = false -> length outs = n /\ (outs <> [] -> ~ too_long supply thr maxm iv (pre ++ outs) (length (pre ++ outs) - 1))).
Proof.
  intro Hiv. induction n as [|n IH]; intros i s r pre s' r' R L6 Eiv Ethr Emax Est Ec H.
  - cbn in H. apply ok_inj in H. inversion H; subst s' r'. exists []. rewrite app_nil_r. cbn [executed length].
    split; [reflexivity|]. split; [exact R|]. split; [lia|]. split; [exact Eiv|]. split; [reflexivity|]. split; [reflexivity|].
    split; [exact L6|]. split; [intros j H1 H2; lia|]. split; [congruence|]. intros _. split; [reflexivity|congruence].
  - cbn [sim_loop] in H. destruct (bind_ok _ _ _ H) as ([s1 o] & Es & H1). clear H.
    destruct (bind_ok _ _ _ H1) as (r1 & Er & H2). clear H1.
    destruct (bind_ok _ _ _ H2) as (d & Ed & H3). clear H2. apply delivery_ok in Ed.
    destruct (record_step_inv pre r o r1 R L6 Er) as (R2 & L2 & I2 & T2 & M2 & C2 & S2 & D2 & P2).
    cbv zeta in *.
    set (r2 := if Qle_bool (so_usable o) 0 then record_outage r1 (sr_iv r) else r1) in *. clearbody r2.
    assert (LP : length (pre ++ [o]) = S (length pre)) by (rewrite app_length; cbn; lia).
    assert (RS : forall c st, recorded (pre ++ [o]) (sr_set r2 (sr_outage r2) c st)).
    { intros c st. destruct R2 as [A1 A2 A3 A4 A5 A6 A7 AT A8 A9 A10 AO]. constructor; cbn; auto. }
    pose proof (streak_snoc supply thr pre o) as SS.
    pose proof (too_long_last supply thr maxm iv (pre ++ [o]) Hiv ltac:(lia)) as TL.
    unfold check_outlet_deficit in H3. rewrite T2, M2, I2, C2, S2, Ethr, Emax, Eiv, Ec, Est in H3.
    rewrite Ed in H3.
    destruct (qltb (delivered o) (supply - thr)) eqn:B.
    + replace (Z.of_nat (streak supply thr pre) * iv + iv)%Z with (Z.of_nat (streak supply thr (pre ++ [o])) * iv)%Z in H3 by (rewrite SS; lia).
      set (c := (Z.of_nat (streak supply thr (pre ++ [o])) * iv)%Z) in *.
      destruct (maxm <? c)%Z eqn:BM.
      * apply Z.ltb_lt in BM. apply ok_inj in H3. inversion H3; subst s' r'. clear H3.
        exists [o]. cbn [executed length sr_iv sr_set sr_duration sr_show_tm sr_temps sr_stopped].
        split; [exists s1; rewrite <- Eiv; auto|]. split; [apply RS|]. split; [lia|]. split; [congruence|]. split; [congruence|].
        split; [congruence|]. split; [exact L2|]. split; [intros j Hj1 Hj2; lia|]. split; [|discriminate].
        intros _. split; [discriminate|]. apply TL. split; [rewrite SS; lia|exact BM].
      * apply Z.ltb_ge in BM.
        destruct (IH (i + 1)%Z s1 _ (pre ++ [o]) s' r' (RS c false)) as (outs & X1 & X2 & X3 & X4 & X5 & X6 & X7 & X8 & X9 & X10);
          [exact L2|cbn; congruence|cbn; congruence|cbn; congruence|reflexivity|reflexivity|exact H3|].
        exists (o :: outs). rewrite <- app_assoc in *. cbn [app] in *.
        assert (NT : ~ too_long supply thr maxm iv (pre ++ o :: outs) (length pre)).
        { intro C. replace (pre ++ o :: outs) with ((pre ++ [o]) ++ outs) in C by (rewrite <- app_assoc; reflexivity).
          apply (proj1 (too_long_prefix supply thr maxm iv (pre ++ [o]) outs (length pre) ltac:(lia))) in C. replace (length pre) with (length (pre ++ [o]) - 1)%nat in C by lia.
          apply TL in C. destruct C as [_ C]. unfold c in BM. lia. }
        split; [cbn [executed]; exists s1; rewrite <- Eiv; rewrite <- Eiv in X1; auto|]. split; [exact X2|]. split; [cbn; lia|].
        split; [exact X4|]. split; [rewrite X5; cbn; congruence|]. split; [rewrite X6; cbn; congruence|]. split; [exact X7|].
        split; [|split].
        -- intros j Hj1 Hj2. destruct (Nat.eq_dec j (length pre)) as [->|Nj]; [exact NT|]. apply X8; lia.
        -- intro E. destruct (X9 E) as [_ E2]. split; [discriminate|exact E2].
        -- intro E. destruct (X10 E) as [E1 E2]. split; [cbn; lia|]. intros _.
           destruct outs as [|o2 outs2]; [|apply E2; discriminate].
           rewrite app_length. cbn [length]. replace (length pre + 1 - 1)%nat with (length pre) by lia. exact NT.
    + destruct (IH (i + 1)%Z s1 _ (pre ++ [o]) s' r' (RS 0%Z false)) as (outs & X1 & X2 & X3 & X4 & X5 & X6 & X7 & X8 & X9 & X10);
        [exact L2|cbn; congruence|cbn; congruence|cbn; congruence|reflexivity|cbn [sr_consec sr_set]; rewrite SS; reflexivity|exact H3|].
      exists (o :: outs). rewrite <- app_assoc in *. cbn [app] in *.
      assert (NT : ~ too_long supply thr maxm iv (pre ++ o :: outs) (length pre)).
      { intro C. replace (pre ++ o :: outs) with ((pre ++ [o]) ++ outs) in C by (rewrite <- app_assoc; reflexivity).
        apply (proj1 (too_long_prefix supply thr maxm iv (pre ++ [o]) outs (length pre) ltac:(lia))) in C. replace (length pre) with (length (pre ++ [o]) - 1)%nat in C by lia.
        apply TL in C. destruct C as [C _]. rewrite SS in C. lia. }
      split; [cbn [executed]; exists s1; rewrite <- Eiv; rewrite <- Eiv in X1; auto|]. split; [exact X2|]. split; [cbn; lia|].
      split; [exact X4|]. split; [rewrite X5; cbn; congruence|]. split; [rewrite X6; cbn; congruence|]. split; [exact X7|].
      split; [|split].
      * intros j Hj1 Hj2. destruct (Nat.eq_dec j (length pre)) as [->|Nj]; [exact NT|]. apply X8; lia.
      * intro E. destruct (X9 E) as [_ E2]. split; [discriminate|exact E2].
      * intro E. destruct (X10 E) as [E1 E2]. split; [cbn; lia|]. intros _.
        destruct outs as [|o2 outs2]; [|apply E2; discriminate].
        rewrite app_length. cbn [length]. replace (length pre + 1 - 1)%nat with (length pre) by lia. exact NT.
Qed.

Lemma recorded_new dur iv thr maxm tm : recorded [] (sr_new dur iv thr maxm tm).
Proof.
  constructor; try reflexivity.
  - intros k Hk. do 6 (destruct k as [|k]; [reflexivity|]). lia.
  - cbn. lia.
Qed.

Lemma simulate_inv {St} (stp : St -> Z -> Z -> res (St * step_out)) s0 supply dur thr maxm tm s' r :
  simulate stp s0 supply dur thr maxm tm = Ok (s', r) ->
  exists total iv outs, sim_times dur = Ok (total, iv) /\ (0 < iv)%Z /\ sr_iv r = iv /\ sr_duration r = total /\
    sr_show_tm r = tm /\
    executed stp iv s0 0 outs s' /\ recorded outs r /\ (Z.of_nat (length outs) <= total / iv)%Z /\
    (forall j, (j + 1 < length outs)%nat -> ~ too_long supply thr maxm iv outs j) /\
    (sr_stopped r = true -> outs <> [] /\ too_long supply thr maxm iv outs (length outs - 1)) /\
    (sr_stopped r = false -> Z.of_nat (length outs) = (total / iv)%Z /\
        (outs <> [] -> ~ too_long supply thr maxm iv outs (length outs - 1))).
Proof.
  intro H. unfold simulate in H. destruct (bind_ok _ _ _ H) as ([total iv] & Et & H1).
  exists total, iv.
  assert (P : (0 < iv)%Z /\ (0 <= total / iv)%Z).
  { unfold sim_times in Et. destruct (String.eqb dur "3day"); [inversion Et; subst; split; [lia|cbn; lia]|].
    destruct (String.eqb dur "annual"); [inversion Et; subst; split; [lia|]|discriminate]. apply Z.div_pos; lia. }
  destruct P as [P1 P2].
  destruct (sim_loop_inv stp supply iv thr maxm P1 _ _ _ _ [] _ _ (recorded_new total iv thr maxm tm) eq_refl eq_refl eq_refl eq_refl eq_refl eq_refl H1)
    as (outs & X1 & X2 & X3 & X4 & X5 & X6 & X7 & X8 & X9 & X10).
  cbn [app] in *. exists outs. split; [exact Et|]. split; [exact P1|]. split; [exact X4|]. split; [exact X5|]. split; [exact X6|].
  split; [exact X1|]. split; [exact X2|]. split; [lia|]. split; [intros j Hj; apply X8; [cbn; lia|exact Hj]|]. split; [exact X9|].
  intro E. destruct (X10 E) as [E1 E2]. split; [lia|exact E2].
Qed.

(** If every step succeeds with 1 to 6 node temperatures, so does the simulation. *)
Lemma sim_loop_total {St} (stp : St -> Z -> Z -> res (St * step_out)) supply (P : St -> Prop) :
  (forall s i iv, P s -> exists s' o, stp s i iv = Ok (s', o) /\ P s' /\ so_temps o <> [] /\ (length (so_temps o) <= 6)%nat) ->
  forall n i s r, P s -> length (sr_temps r) = 6%nat -> exists x, sim_loop stp supply n i s r = Ok x.
Proof.
  intros T. induction n as [|n IH]; intros i s r HP L; [eexists; reflexivity|].
  cbn [sim_loop]. destruct (T s i (sr_iv r) HP) as (s1 & o & E & HP1 & N & L6). rewrite E. cbn [bind].
  unfold record_timestep at 1. destruct (record_nodes_total (so_temps o) (sr_temps r) ltac:(lia)) as (c & Ec).
  rewrite Ec. cbn [bind].
  destruct (record_nodes_ok _ _ _ Ec) as (_ & LC & _).
  match goal with |- context [delivery_temp o] => idtac end.
  assert (DE : exists d, delivery_temp o = Ok d).
  { unfold delivery_temp. unfold py_nth. cbv zeta.
    assert (LT : (0 < Z.of_nat (length (so_temps o)))%Z) by (destruct (so_temps o); [congruence|cbn; lia]).
    replace (-1 <? 0)%Z with true by lia.
    replace ((-1 + Z.of_nat (length (so_temps o)) <? 0) || (Z.of_nat (length (so_temps o)) <=? -1 + Z.of_nat (length (so_temps o))))%Z%bool with false by lia.
    destruct (nth_error (so_temps o) (Z.to_nat (-1 + Z.of_nat (length (so_temps o))))) eqn:NE; [eexists; reflexivity|].
    apply nth_error_None in NE. lia. }
  destruct DE as (d & Ed). rewrite Ed. cbn [bind].
  match goal with |- context [check_outlet_deficit ?a d supply] => set (r2 := a) end.
  assert (L2 : length (sr_temps r2) = 6%nat).
  { unfold r2. destruct (Qle_bool (so_usable o) 0); cbn; lia. }
  unfold check_outlet_deficit. destruct (qltb d (supply - sr_thr r2)).
  - destruct (sr_max r2 <? sr_consec r2 + sr_iv r2)%Z; [eexists; reflexivity|apply IH; assumption].
  - apply IH; assumption.
Qed.
