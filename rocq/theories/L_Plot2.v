(** Lemmas on the modes and series a simulation of an engine records (C70). *)
From Verif Require Import Prelude M_StratifiedTank M_MixedTank M_EnergyTank M_Building M_Heater L_Heater L_Building M_Sizing M_SimRun S_SimRun L_SimRun
  M_Step S_Step L_Step L_Step2 L_Step3 L_Step4 L_Step5 L_Step6 M_Swing M_MPRTP M_Engine S_Engine S_EngineRun L_Engine L_Engine2 L_Engine6 M_Plot S_Plot L_Plot.
Open Scope Q_scope.

Lemma mode_same hs hs' hour : Forall2 same_heater hs hs' -> mode_for hs' hour = mode_for hs hour.
Proof. intros [|h h' t t' (_ & S & _) _]; [reflexivity|]. cbn. rewrite S. reflexivity. Qed.

(** What every step of a system reports. *)
Definition step_says (hs : list heater) (tm : bool) (iv t : Z) (o : step_out) : Prop :=
  mode_for hs (hour_of t iv) = Ok (so_mode o) /\ length (so_temps o) = 6%nat /\
  (tm = true -> so_tm_temp o <> None /\ so_tm_output o <> None).

Lemma executed_says {St} (like : St -> St -> Prop) (hsf : St -> list heater) tm (stp : St -> Z -> Z -> res (St * step_out)) iv :
  (forall s, like s s) -> (forall a b c, like a b -> like b c -> like a c) ->
  (forall a b, like a b -> Forall2 same_heater (hsf a) (hsf b)) ->
  (forall s t s' o, stp s t iv = Ok (s', o) -> like s s') ->
  (forall s t s' o, stp s t iv = Ok (s', o) -> step_says (hsf s) tm iv t o) ->
  forall outs s i s', executed stp iv s i outs s' -> forall s0, like s0 s ->
  forall k o, nth_error outs k = Some o -> step_says (hsf s0) tm iv (i + Z.of_nat k) o.
Proof.
  intros R T F SL SAY. induction outs as [|o1 outs IH]; intros s i s' H s0 L0 k o E; [destruct k; discriminate|].
  cbn [executed] in H. destruct H as (s1 & E1 & H). destruct k as [|k]; cbn [nth_error] in E.
  - injection E as <-. rewrite Z.add_0_r. destruct (SAY _ _ _ _ E1) as (A & B). split; [|exact B]. rewrite <- (mode_same _ _ _ (F _ _ L0)). exact A.
  - replace (i + Z.of_nat (S k))%Z with (i + 1 + Z.of_nat k)%Z by lia. exact (IH _ _ _ H s0 (T _ _ _ L0 (SL _ _ _ _ E1)) k o E).
Qed.

Lemma six_length t ts : six_temps t = Ok ts -> length ts = 6%nat.
Proof. intro H. exact (mapM_length _ _ _ H). Qed.

Lemma base_says b s t iv s' o : base_step b s t iv = Ok (s', o) -> step_says (bs_heaters s) false iv t o.
Proof.
  unfold base_step. cbv zeta. intro H. destruct (bind_ok _ _ _ H) as (d & _ & H1). clear H. destruct (bind_ok _ _ _ H1) as (oat & _ & H2). clear H1.
  destruct (bind_ok _ _ _ H2) as (inlet & _ & H3). clear H2. destruct (bind_ok _ _ _ H3) as (outlet & _ & H4). clear H3. destruct (bind_ok _ _ _ H4) as (mode & EM & H5). clear H4.
  destruct (bs_tank s) as [tk|].
  - destruct (bind_ok _ _ _ H5) as (hs & _ & H6). clear H5. destruct (bind_ok _ _ _ H6) as (x & _ & H7). clear H6. destruct (bind_ok _ _ _ H7) as (out & _ & H8). clear H7.
    destruct (bind_ok _ _ _ H8) as (kws & _ & H9). clear H8. destruct (bind_ok _ _ _ H9) as (t1 & _ & H10). clear H9. destruct (bind_ok _ _ _ H10) as (t2 & _ & H11). clear H10.
    destruct (bind_ok _ _ _ H11) as (u & _ & H12). clear H11. destruct (bind_ok _ _ _ H12) as (ts & ET & H13). clear H12.
    apply ok_inj in H13. apply pair_equal_spec in H13. destruct H13 as [_ <-]. split; [exact EM|]. split; [exact (six_length _ _ ET)|discriminate].
  - apply ok_inj in H5. apply pair_equal_spec in H5. destruct H5 as [_ <-]. split; [exact EM|]. split; [reflexivity|discriminate].
Qed.
Lemma sprtp_says ret flow b s t iv s' o : sprtp_step ret flow b s t iv = Ok (s', o) -> step_says (bs_heaters s) false iv t o.
Proof.
  unfold sprtp_step. intro H. destruct (bind_ok _ _ _ H) as ([s1 o1] & E & H1). destruct (base_says _ _ _ _ _ _ E) as (A & B & _).
  destruct (bs_tank s1) as [tk|].
  - destruct (bind_ok _ _ _ H1) as (tk1 & _ & H2). destruct (bind_ok _ _ _ H2) as (u & _ & H3). destruct (bind_ok _ _ _ H3) as (ts & ET & H4).
    apply ok_inj in H4. apply pair_equal_spec in H4. destruct H4 as [_ <-]. split; [exact A|]. split; [exact (six_length _ _ ET)|discriminate].
  - apply ok_inj in H1. apply pair_equal_spec in H1. destruct H1 as [_ <-]. split; [exact A|]. split; [exact B|discriminate].
Qed.
Lemma parallel_says b p t iv p' o : parallel_step b p t iv = Ok (p', o) -> step_says (bs_heaters (ps_base p)) false iv t o.
Proof.
  unfold parallel_step. intro H. destruct (bind_ok _ _ _ H) as ([s1 o1] & E & H1). destruct (base_says _ _ _ _ _ _ E) as (A & B & _).
  destruct (bind_ok _ _ _ H1) as ([[tk h] [[temp out] kw]] & _ & H2). apply ok_inj in H2. apply pair_equal_spec in H2. destruct H2 as [_ <-].
  split; [exact A|]. split; [exact B|discriminate].
Qed.
Lemma swing_says b w t iv w' o : swing_sim_step b w t iv = Ok (w', o) -> step_says (ws_heaters w) true iv t o.
Proof.
  unfold swing_sim_step. cbv zeta. intro H.
  destruct (bind_ok _ _ _ H) as (d & _ & H1). clear H. destruct (bind_ok _ _ _ H1) as (oat & _ & H). clear H1.
  destruct (bind_ok _ _ _ H) as (inlet & _ & H1). clear H. destruct (bind_ok _ _ _ H1) as (outlet & _ & H). clear H1. destruct (bind_ok _ _ _ H) as (mode & EM & H1). clear H.
  repeat (lazymatch type of H1 with
          | bind (six_temps ?y) _ = _ => fail
          | bind _ _ = _ => let x := fresh "x" in let E := fresh "E" in let H' := fresh "H" in destruct (bind_ok _ _ _ H1) as (x & E & H'); clear H1 E; rename H' into H1; cbv beta in H1
          end).
  destruct (bind_ok _ _ _ H1) as (ts & ET & H). apply ok_inj in H. apply pair_equal_spec in H. destruct H as [_ <-].
  split; [exact EM|]. split; [exact (six_length _ _ ET)|]. intros _. split; discriminate.
Qed.
Lemma mp_says b s t iv s' o : mp_step b s t iv = Ok (s', o) -> step_says (ms_heaters s) false iv t o.
Proof.
  unfold mp_step. cbv zeta. intro H. destruct (bind_ok _ _ _ H) as (d & _ & H1). clear H. destruct (bind_ok _ _ _ H1) as (oat & _ & H2). clear H1.
  destruct (bind_ok _ _ _ H2) as (inlet & _ & H3). clear H2. destruct (bind_ok _ _ _ H3) as (mode & EM & H4). clear H3.
  destruct (bind_ok _ _ _ H4) as (hs & Ehs & H5). clear H4. destruct (bind_ok _ _ _ H5) as (tk1 & E1 & H6). clear H5.
  destruct (bind_ok _ _ _ H6) as (top & _ & H7). clear H6. destruct (bind_ok _ _ _ H7) as (out & _ & H8). clear H7.
  destruct (bind_ok _ _ _ H8) as (kws & _ & H9). clear H8. destruct (bind_ok _ _ _ H9) as ([draw mv] & _ & H10). clear H9.
  destruct (bind_ok _ _ _ H10) as (tk2 & E2 & H11). clear H10. destruct (bind_ok _ _ _ H11) as (tk3 & E3 & H12). clear H11.
  destruct (bind_ok _ _ _ H12) as (u & _ & H13). clear H12. destruct (bind_ok _ _ _ H13) as (ts & ET & H14). clear H13.
  apply ok_inj in H14. apply pair_equal_spec in H14. destruct H14 as [_ <-]. split; [exact EM|]. split; [exact (mapM_length _ _ _ ET)|discriminate].
Qed.
Lemma instant_says b s t iv s' o : instant_step b s t iv = Ok (s', o) -> s' = s /\ step_says [] false iv t o.
Proof.
  unfold instant_step. cbv zeta. intro H. opn H. apply pair_equal_spec in H. destruct H as [<- <-]. split; [reflexivity|]. split; [reflexivity|]. split; [reflexivity|discriminate].
Qed.

(** Every step of a simulation of an engine. *)
Lemma engine_says e dur thr maxm e' r : eng_simulate e dur thr maxm = Ok (e', r) ->
  exists total iv outs, lasts dur total iv /\ (0 < iv)%Z /\ reported (sim_supply (en_system e)) thr maxm total iv outs r /\
    (sr_show_tm r = true <-> type_of (en_system e) = SwingTank) /\
    forall k o, nth_error outs k = Some o -> step_says (primary_heaters (en_system e)) (sr_show_tm r) iv (Z.of_nat k) o.
Proof.
  intro H. unfold eng_simulate in H. cbv zeta in H.
  destruct (en_system e) as [d s|l s|w s|d ret flow s|x|d] eqn:ES; destruct (bind_ok _ _ _ H) as ([s' r'] & E & H1); clear H; apply ok_inj in H1; apply pair_equal_spec in H1; destruct H1 as [_ <-];
    cbn [snd primary_heaters type_of sim_supply].
  - unfold simulate_base in E. destruct (bind_ok _ _ _ E) as (s0 & E0 & E1). destruct (simulate_reported _ _ _ _ _ _ _ _ _ E1) as (total & iv & outs & LA & P & EX & RP & TM).
    exists total, iv, outs. split; [exact LA|]. split; [exact P|]. split; [exact RP|]. rewrite TM. split; [split; discriminate|].
    intros k o EK. rewrite <- (Z.add_0_l (Z.of_nat k)).
    refine (executed_says base_like bs_heaters false (base_step _) iv base_like_refl base_like_trans _ (fun a t a' o => base_step_like _ a t iv a' o) (fun a t a' o => base_says _ a t iv a' o) _ _ _ _ EX s _ k o EK).
    + intros a c (F & _). exact F.
    + exact (proj1 (init_base_like _ _ _ E0)).
  - unfold simulate_parallel in E. destruct (bind_ok _ _ _ E) as (s0 & E0 & E1). destruct (simulate_reported _ _ _ _ _ _ _ _ _ E1) as (total & iv & outs & LA & P & EX & RP & TM).
    exists total, iv, outs. split; [exact LA|]. split; [exact P|]. split; [exact RP|]. rewrite TM. split; [split; discriminate|].
    intros k o EK. rewrite <- (Z.add_0_l (Z.of_nat k)).
    refine (executed_says par_like (fun p => bs_heaters (ps_base p)) false (parallel_step _) iv par_like_refl par_like_trans _ (fun a t a' o => parallel_step_like _ a t iv a' o) (fun a t a' o => parallel_says _ a t iv a' o) _ _ _ _ EX s _ k o EK).
    + intros a c ((F & _) & _). exact F.
    + exact (init_parallel_like _ _ _ E0).
  - unfold simulate_swing in E. destruct (bind_ok _ _ _ E) as (s0 & E0 & E1). destruct (simulate_reported _ _ _ _ _ _ _ _ _ E1) as (total & iv & outs & LA & P & EX & RP & TM).
    exists total, iv, outs. split; [exact LA|]. split; [exact P|]. split; [exact RP|]. rewrite TM. split; [split; reflexivity|].
    intros k o EK. rewrite <- (Z.add_0_l (Z.of_nat k)).
    refine (executed_says swing_like ws_heaters true (swing_sim_step _) iv swing_like_refl swing_like_trans _ (fun a t a' o => swing_step_like _ a t iv a' o) (fun a t a' o => swing_says _ a t iv a' o) _ _ _ _ EX s _ k o EK).
    + intros a c (F & _). exact F.
    + exact (init_swing_like _ _ _ E0).
  - unfold simulate_sprtp in E. destruct (bind_ok _ _ _ E) as (s0 & E0 & E1). destruct (simulate_reported _ _ _ _ _ _ _ _ _ E1) as (total & iv & outs & LA & P & EX & RP & TM).
    exists total, iv, outs. split; [exact LA|]. split; [exact P|]. split; [exact RP|]. rewrite TM. split; [split; discriminate|].
    intros k o EK. rewrite <- (Z.add_0_l (Z.of_nat k)).
    refine (executed_says base_like bs_heaters false (sprtp_step _ _ _) iv base_like_refl base_like_trans _ (fun a t a' o => sprtp_step_like _ _ _ a t iv a' o) (fun a t a' o => sprtp_says _ _ _ a t iv a' o) _ _ _ _ EX s _ k o EK).
    + intros a c (F & _). exact F.
    + exact (proj1 (init_base_like _ _ _ E0)).
  - unfold simulate_mp in E. destruct (bind_ok _ _ _ E) as (s0 & E0 & E1). destruct (simulate_reported _ _ _ _ _ _ _ _ _ E1) as (total & iv & outs & LA & P & EX & RP & TM).
    exists total, iv, outs. split; [exact LA|]. split; [exact P|]. split; [exact RP|]. rewrite TM. split; [split; discriminate|].
    intros k o EK. rewrite <- (Z.add_0_l (Z.of_nat k)).
    refine (executed_says mp_like ms_heaters false (mp_step _) iv mp_like_refl mp_like_trans _ (fun a t a' o => mp_step_like _ a t iv a' o) (fun a t a' o => mp_says _ a t iv a' o) _ _ _ _ EX (mb_sys x) _ k o EK).
    + intros a c (F & _). exact F.
    + exact (init_mp_like _ _ _ E0).
  - unfold simulate_instant in E. destruct (bind_ok _ _ _ E) as (s0 & E0 & E1). destruct (simulate_reported _ _ _ _ _ _ _ _ _ E1) as (total & iv & outs & LA & P & EX & RP & TM).
    exists total, iv, outs. split; [exact LA|]. split; [exact P|]. split; [exact RP|]. rewrite TM. split; [split; discriminate|].
    intros k o EK. rewrite <- (Z.add_0_l (Z.of_nat k)).
    refine (executed_says (fun a a' => a' = a) (fun _ => []) false (instant_step _) iv _ _ _ _ _ _ _ _ _ EX d eq_refl k o EK).
    + reflexivity.
    + congruence.
    + constructor.
    + intros a t a' o' ST. exact (proj1 (instant_says _ _ _ _ _ _ ST)).
    + intros a t a' o' ST. exact (proj2 (instant_says _ _ _ _ _ _ ST)).
Qed.
