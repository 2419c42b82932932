(** C69: the utility comparison graph; C70: the simulation plot. *)
From Coq Require Import Sorted.
From Verif Require Import Prelude M_StratifiedTank M_MixedTank M_EnergyTank M_Building S_Building L_Building M_Utility S_Utility L_Utility L_Utility2 M_Heater L_Heater
  M_Sizing M_SimRun S_SimRun L_SimRun L_SimCost L_SimCost2 M_Step S_Step M_Swing M_MPRTP M_Engine S_Engine S_EngineRun L_Engine L_Engine2
  M_Plot S_Plot L_Plot L_Plot2 P_Utility P_SimRun P_Engine P_Engine6.
Open Scope Q_scope.

(** ** C69 Utility comparison graph *)

(** Only annual runs are compared. *)
Theorem C69_refused : forall hp uer u, sr_duration hp <> 525600%Z \/ sr_duration uer <> 525600%Z ->
  comparison_graph hp uer u = Err ValueError /\ comparison_array hp uer u = Err ValueError.
Proof.
  intros hp uer u H. assert (E : comparison_array hp uer u = Err ValueError); [|unfold comparison_graph; rewrite E; auto].
  unfold comparison_array. change (365 * 24 * 60)%Z with 525600%Z.
  destruct (Z.eqb_spec (sr_duration hp) 525600), (Z.eqb_spec (sr_duration uer) 525600); cbn; try reflexivity. destruct H; contradiction.
Qed.
Print Assumptions C69_refused.

(** Two annual runs that can be billed are compared: the stack at a month's name is what that month
    costs with the first run, the stack at the name with a blank what it costs with the second, and
    the twelve stacks of a run add up to its annual cost. *)
Theorem C69_stacks : forall p hp uer u c c',
  from_params p = Ok u -> pr_pk_start p <> [] ->
  sr_duration hp = 525600%Z -> sr_duration uer = 525600%Z -> (0 < sr_iv hp)%Z -> (0 < sr_iv uer)%Z ->
  annual_cost hp u = Ok c -> annual_cost uer u = Ok c' ->
  exists fig, comparison_graph hp uer u = Ok fig /\
    (forall m name, nth_error calendar_months m = Some name ->
       month_bill hp u m (stack fig name) /\ month_bill uer u m (stack fig (name ++ " ")%string)) /\
    qsum (map (stack fig) calendar_months) == c /\
    qsum (map (fun name => stack fig (name ++ " ")%string) calendar_months) == c'.
Proof.
  change calendar_months with month_names. intros p hp uer u c c' H NE D1 D2 I1 I2 A1 A2.
  destruct (detailed_months _ _ _ _ H NE I1 A1) as (a & EA & LA1 & LA2 & LA3 & LA4 & MA & SA).
  destruct (detailed_months _ _ _ _ H NE I2 A2) as (b & EB & LB1 & LB2 & LB3 & LB4 & MB & SB).
  unfold comparison_graph, comparison_array. rewrite D1, D2, EA, EB. change (525600 =? 365 * 24 * 60)%Z with true. cbn [negb orb bind].
  match goal with |- exists fig, Ok ?f = _ /\ _ => set (F := f) end. exists F. split; [reflexivity|].
  assert (LR : length (repeat (ut_base u) 12) = 12%nat) by reflexivity.
  assert (NR : forall m, (m < 12)%nat -> nth m (repeat (ut_base u) 12) 0 = ut_base u) by (intros m Hm; do 12 (destruct m as [|m]; [reflexivity|]); lia).
  assert (ST : forall m name, nth_error month_names m = Some name -> (m < 12)%nat).
  { intros m name E. change 12%nat with (length month_names). apply nth_error_Some. congruence. }
  assert (EV : forall m name, nth_error month_names m = Some name -> stack F name ==
     ut_base u + nth m (bk_energy_peak a) 0 + nth m (bk_energy_off a) 0 + nth m (bk_demand_peak a) 0 + nth m (bk_demand_off a) 0).
  { intros m name E. unfold stack, F. rewrite !map_app, !qsum_app.
    rewrite (category_even _ _ _ _ _ LR LR E), (category_even _ _ _ _ _ LA1 LB1 E), (category_even _ _ _ _ _ LA2 LB2 E), (category_even _ _ _ _ _ LA3 LB3 E), (category_even _ _ _ _ _ LA4 LB4 E).
    rewrite (NR m (ST _ _ E)). ring. }
  assert (OD : forall m name, nth_error month_names m = Some name -> stack F (name ++ " ")%string ==
     ut_base u + nth m (bk_energy_peak b) 0 + nth m (bk_energy_off b) 0 + nth m (bk_demand_peak b) 0 + nth m (bk_demand_off b) 0).
  { intros m name E. unfold stack, F. rewrite !map_app, !qsum_app.
    rewrite (category_odd _ _ _ _ _ LR LR E), (category_odd _ _ _ _ _ LA1 LB1 E), (category_odd _ _ _ _ _ LA2 LB2 E), (category_odd _ _ _ _ _ LA3 LB3 E), (category_odd _ _ _ _ _ LA4 LB4 E).
    rewrite (NR m (ST _ _ E)). ring. }
  clearbody F. split; [|split].
  - intros m name E. pose proof (ST _ _ E) as Hm. split.
    + destruct (MA m Hm) as (rate & per & d & ch & mon & pmon & B1 & B2 & B3 & B4 & B5 & B6). exists rate, per, d, ch, mon, pmon. do 5 (split; [assumption|]). rewrite (EV _ _ E). exact B6.
    + destruct (MB m Hm) as (rate & per & d & ch & mon & pmon & B1 & B2 & B3 & B4 & B5 & B6). exists rate, per, d, ch, mon, pmon. do 5 (split; [assumption|]). rewrite (OD _ _ E). exact B6.
  - rewrite <- SA. cbn [month_names map qsum fold_right seq].
    rewrite (EV 0%nat _ eq_refl), (EV 1%nat _ eq_refl), (EV 2%nat _ eq_refl), (EV 3%nat _ eq_refl), (EV 4%nat _ eq_refl), (EV 5%nat _ eq_refl), (EV 6%nat _ eq_refl), (EV 7%nat _ eq_refl), (EV 8%nat _ eq_refl), (EV 9%nat _ eq_refl), (EV 10%nat _ eq_refl), (EV 11%nat _ eq_refl). reflexivity.
  - rewrite <- SB. cbn [month_names map qsum fold_right seq].
    rewrite (OD 0%nat _ eq_refl), (OD 1%nat _ eq_refl), (OD 2%nat _ eq_refl), (OD 3%nat _ eq_refl), (OD 4%nat _ eq_refl), (OD 5%nat _ eq_refl), (OD 6%nat _ eq_refl), (OD 7%nat _ eq_refl), (OD 8%nat _ eq_refl), (OD 9%nat _ eq_refl), (OD 10%nat _ eq_refl), (OD 11%nat _ eq_refl). reflexivity.
Qed.
Print Assumptions C69_stacks.

(** The traces: five kinds of charge for each run, each drawn over the same 24 labels, those of the first
    run only at the months' names, those of the second only at the names with a blank; and they are the
    parts of the breakdown returned as an array. *)
Theorem C69_traces : forall hp uer u fig, comparison_graph hp uer u = Ok fig ->
  exists a b, comparison_array hp uer u = Ok (a, b) /\ detailed_cost hp u = Ok a /\ detailed_cost uer u = Ok b /\
    NoDup x_labels /\ length x_labels = 24%nat /\
    map br_name fig =
      ["Base Charges for HP"; "Base Charges for UER"; "Peak Energy Charges for HP"; "Peak Energy Charges for UER";
       "Off-Peak Energy Charges for HP"; "Off-Peak Energy Charges for UER"; "Peak Demand Charges for HP";
       "Peak Demand Charges for UER"; "Off-Peak Demand Charges for HP"; "Off-Peak Demand Charges for UER"]%string /\
    Forall (fun t => br_x t = x_labels) fig /\
    (forall m k t y, nth_error fig (2 * k) = Some t ->
      nth_error [repeat (ut_base u) 12; bk_energy_peak a; bk_energy_off a; bk_demand_peak a; bk_demand_off a] k = Some y ->
      nth (2 * m) (br_y t) 0 = nth m y 0 /\ nth (2 * m + 1) (br_y t) 0 = 0) /\
    (forall m k t y, nth_error fig (2 * k + 1) = Some t ->
      nth_error [repeat (ut_base u) 12; bk_energy_peak b; bk_energy_off b; bk_demand_peak b; bk_demand_off b] k = Some y ->
      nth (2 * m) (br_y t) 0 = 0 /\ nth (2 * m + 1) (br_y t) 0 = nth m y 0).
Proof.
  intros hp uer u fig H. unfold comparison_graph in H. destruct (bind_ok _ _ _ H) as ([a b] & EA & H1). clear H. exists a, b.
  split; [exact EA|]. unfold comparison_array in EA. destruct (_ || _)%bool; [discriminate|]. destruct (bind_ok _ _ _ EA) as (a' & E1 & E2). destruct (bind_ok _ _ _ E2) as (b' & E3 & E4).
  apply ok_inj in E4. apply pair_equal_spec in E4. destruct E4 as [-> ->]. split; [exact E1|]. split; [exact E3|]. split; [exact labels_nodup|]. split; [reflexivity|].
  apply ok_inj in H1. subst fig. split; [reflexivity|]. split; [repeat constructor|].
  assert (SI : forall A (x y : A), Some x = Some y -> y = x) by congruence.
  split; intros m k t y ET EY; (do 5 (destruct k as [|k]; [cbv [category app nth_error Nat.mul Nat.add] in ET; cbn [nth_error] in EY; rewrite (SI _ _ _ ET), (SI _ _ _ EY); cbn [br_y]; rewrite interleave_even, interleave_odd; split; reflexivity|]); destruct k; discriminate).
Qed.
Print Assumptions C69_traces.

Example C69_case : exists u c, from_params ex_three = Ok u /\ pr_pk_start ex_three <> [] /\
  let r := ex_run [Some 2; None; Some 5; Some 4] [0; 3; 0; 3] in
  annual_cost r u = Ok c /\ exists fig, comparison_graph r r u = Ok fig /\ qsum (map (stack fig) calendar_months) == c.
Proof.
  destruct C14_case as (u & c & H & NE & A). exists u, c. split; [exact H|]. split; [exact NE|]. cbv zeta. split; [exact A|].
  set (r := ex_run [Some 2; None; Some 5; Some 4] [0; 3; 0; 3]) in *. destruct (C69_stacks ex_three r r u c c H NE eq_refl eq_refl eq_refl eq_refl A A) as (fig & E & _ & S & _). exists fig. split; [exact E|exact S].
Qed.

(** ** C70 Simulation plot *)

(** The plot of a recorded run succeeds and shows its steps. *)
Theorem C70_lines : forall supply outs r temperatures,
  recorded outs r -> (0 < sr_iv r)%Z ->
  (temperatures = true -> outs <> [] /\ forall o, In o outs -> length (so_temps o) = 6%nat) ->
  (sr_show_tm r = true -> forall o, In o outs -> so_tm_temp o <> None /\ so_tm_output o <> None) ->
  exists ls sh, run_plot (Some supply) r temperatures = Ok (ls, sh) /\
    Forall2 (line_shows (sr_iv r) outs)
      (volume_lines supply (sr_iv r) ++ (if temperatures then temperature_lines else []) ++
       (if sr_show_tm r then panel_lines else [])) ls.
Proof.
  intros supply outs r temperatures [R1 R2 R3 R4 R5 R6 R7 R8 R9 R10 R11 R12] IV HT HP. set (iv := sr_iv r) in *.
  assert (NZ : ~ qz iv == 0) by (intro X; unfold qz in X; unfold Qeq in X; cbn in X; lia).
  pose proof (qdiv_ok 60 (qz iv) NZ) as EP.
  assert (LD : length (sr_demand r) = length outs) by (rewrite R1; apply map_length).
  assert (LM : length (sr_mode r) = length outs) by (rewrite R7; apply map_length).
  destruct (shades_spec (sr_mode r) iv (length (sr_demand r)) ltac:(lia) (length (sr_mode r)) 0 []) as (sh & ES & _); [lia|intros; left; reflexivity|].
  unfold run_plot. fold iv. cbv zeta. rewrite EP. cbn [bind]. cbn [skipn] in ES. rewrite ES. cbn [bind]. eexists _, sh. split; [reflexivity|].
  rewrite LD. unfold volume_lines. cbn [app]. constructor; [|constructor; [|constructor]].
  - cbn. do 3 (split; [reflexivity|]). rewrite R2. apply shows_map. reflexivity.
  - cbn. do 3 (split; [reflexivity|]). rewrite R1, map_map. apply shows_map. intros o _. unfold Qdiv. ring.
  - cbn. do 3 (split; [reflexivity|]). rewrite R3, R6, gph_map. apply shows_map. intros o _. unfold generated, qmax.
    destruct (Qle_bool 1 (supply - so_inlet o)) eqn:X, (Qle_bool (supply - so_inlet o) 1) eqn:Y; qbool; try reflexivity.
    + assert (Z : supply - so_inlet o == 1) by lra. rewrite Z. reflexivity.
    + exfalso. lra.
  - apply Forall2_app.
    + destruct temperatures; [|constructor]. destruct (HT eq_refl) as [NE L6].
      assert (TK : forall k, (k < 6)%nat -> nth_error (sr_temps r) k = Some (map (fun o => nth k (so_temps o) 0) outs)).
      { intros k K. rewrite (R8 k K), nodes_all; [reflexivity|]. intros o I. rewrite (L6 o I). exact K. }
      pose proof (TK 0%nat ltac:(lia)) as T0. pose proof (TK 1%nat ltac:(lia)) as T1. pose proof (TK 2%nat ltac:(lia)) as T2.
      pose proof (TK 3%nat ltac:(lia)) as T3. pose proof (TK 4%nat ltac:(lia)) as T4. pose proof (TK 5%nat ltac:(lia)) as T5. clear TK R8.
      destruct (sr_temps r) as [|t0 [|t1 [|t2 [|t3 [|t4 [|t5 rest]]]]]]; try discriminate. cbn [nth_error] in *.
      injection T0 as ->. injection T1 as ->. injection T2 as ->. injection T3 as ->. injection T4 as ->. injection T5 as ->.
      assert (X : forall k, map (fun o => nth k (so_temps o) 0) outs <> []) by (intros k; destruct outs; [contradiction|discriminate]).
      assert (Y : forall (l : list Q) (f : list Q -> list line), l <> [] -> match l with [] => [] | _ :: _ => f l end = f l) by (intros [|q l] f N; [contradiction|reflexivity]).
      unfold node_labels. cbn [combine flat_map fst snd].
      pose proof (X 0%nat) as X0. pose proof (X 1%nat) as X1. pose proof (X 2%nat) as X2. pose proof (X 3%nat) as X3. pose proof (X 4%nat) as X4. pose proof (X 5%nat) as X5.
      do 6 (match goal with |- context [match map ?f outs with [] => [] | a :: b => [mkLine ?n ?w ?q ?tm (a :: b)] end] =>
        replace (match map f outs with [] => [] | a :: b => [mkLine n w q tm (a :: b)] end) with [mkLine n w q tm (map f outs)] by (destruct (map f outs); [contradiction|reflexivity]) end).
      rewrite R5, R6. unfold temperature_lines. cbn [app].
      repeat (constructor; [cbn [line_shows ln_name ln_row ln_right]; do 3 (split; [reflexivity|]); apply shows_map; reflexivity|]). constructor.
    + destruct (sr_show_tm r); [|constructor]. specialize (HP eq_refl). rewrite R9, R10, !somes_all by (intros o I; apply (HP o I)). rewrite map_length.
      repeat (constructor; [cbn [line_shows ln_name ln_row ln_right]; do 3 (split; [reflexivity|]); apply shows_map; reflexivity|]). constructor.
Qed.
Print Assumptions C70_lines.

(** Without a supply temperature the heater's line is left out; a run with interval 0 cannot be plotted. *)
Theorem C70_no_interval : forall supply r temperatures, sr_iv r = 0%Z -> run_plot supply r temperatures = Err ZeroDivisionError.
Proof. intros supply r temperatures E. unfold run_plot. cbv zeta. rewrite E. reflexivity. Qed.
Print Assumptions C70_no_interval.

(** The shaded blocks are exactly the unbroken runs of shed and of load-up steps, in order, without
    overlap; the first of each kind carries its name. *)
Theorem C70_blocks : forall supply outs r temperatures ls sh,
  recorded outs r -> (0 < sr_iv r)%Z -> run_plot supply r temperatures = Ok (ls, sh) ->
  (forall s, In s sh -> (sh_kind s = "shed"%string \/ sh_kind s = "loadUp"%string) /\
     exists a b, whole_block (map so_mode outs) (sh_kind s) a b /\
       sh_from s = (Z.of_nat a * sr_iv r)%Z /\ sh_to s = (Z.of_nat b * sr_iv r)%Z) /\
  (forall kind a b, kind = "shed"%string \/ kind = "loadUp"%string -> whole_block (map so_mode outs) kind a b ->
     exists s, In s sh /\ sh_kind s = kind /\ sh_from s = (Z.of_nat a * sr_iv r)%Z /\ sh_to s = (Z.of_nat b * sr_iv r)%Z) /\
  StronglySorted (fun s s' => (sh_to s <= sh_from s')%Z) sh /\
  forall k s, nth_error sh k = Some s ->
    ((exists j s', (j < k)%nat /\ nth_error sh j = Some s' /\ sh_kind s' = sh_kind s) -> sh_text s = ""%string) /\
    ((forall j s', (j < k)%nat -> nth_error sh j = Some s' -> sh_kind s' <> sh_kind s) ->
       sh_text s = if String.eqb (sh_kind s) "shed" then "Shed"%string else "Load-Up"%string).
Proof.
  intros supply outs r temperatures ls sh RC IV H. destruct RC as [R1 _ _ _ _ _ R7 _ _ _ _ _].
  assert (LD : length (sr_demand r) = length outs) by (rewrite R1; apply map_length).
  assert (LM : length (sr_mode r) = length outs) by (rewrite R7; apply map_length).
  destruct (shades_spec (sr_mode r) (sr_iv r) (length (sr_demand r)) ltac:(lia) (length (sr_mode r)) 0 []) as (sh' & ES & S1 & S2 & S3 & S4); [lia|intros; left; reflexivity|].
  unfold run_plot in H. cbv zeta in H. destruct (bind_ok _ _ _ H) as (ph & _ & H1). cbn [skipn] in ES. rewrite ES in H1. cbn [bind] in H1.
  apply ok_inj in H1. apply pair_equal_spec in H1. destruct H1 as [_ ->]. rewrite R7 in *.
  assert (LK : forall m, is_ls_mode m = true <-> m = "shed"%string \/ m = "loadUp"%string).
  { intro m. unfold is_ls_mode. rewrite Bool.orb_true_iff, !String.eqb_eq. reflexivity. }
  split; [|split; [|split; [exact (S4 IV)|]]].
  - intros s I. destruct (S1 s I) as (a & b & _ & K & W & F & T). split; [apply LK; exact K|]. exists a, b. auto.
  - intros kind a b K W. apply S2; [lia|apply LK; exact K|exact W].
  - intros k s E. pose proof (S3 k s E) as T. cbn [existsb orb] in T. split.
    + intros (j & s' & J & E' & EK). rewrite T. replace (existsb _ _) with true; [reflexivity|]. symmetry. apply existsb_exists. exists s'.
      split; [|rewrite EK; apply String.eqb_refl]. apply (nth_error_In _ j). rewrite nth_error_firstn'; assumption.
    + intro N. rewrite T. replace (existsb _ _) with false; [reflexivity|]. symmetry. apply Bool.not_true_is_false. intro X. apply existsb_exists in X.
      destruct X as (s' & I & Q). apply String.eqb_eq in Q. apply In_nth_error in I. destruct I as (j & I).
      assert (J : (j < k)%nat). { assert (J : (j < length (firstn k sh))%nat) by (apply nth_error_Some; congruence). rewrite firstn_length in J. lia. }
      rewrite nth_error_firstn' in I by exact J. exact (N j s' J I (eq_sym Q)).
Qed.
Print Assumptions C70_blocks.

(** So an instant within a step is shaded as shed, or as load-up, exactly if the step was run so. *)
Theorem C70_instants : forall supply outs r temperatures ls sh i o t kind,
  recorded outs r -> (0 < sr_iv r)%Z -> run_plot supply r temperatures = Ok (ls, sh) ->
  nth_error outs i = Some o -> qz (Z.of_nat i * sr_iv r) <= t -> t < qz ((Z.of_nat i + 1) * sr_iv r) ->
  kind = "shed"%string \/ kind = "loadUp"%string ->
  (shaded sh kind t <-> so_mode o = kind).
Proof.
  intros supply outs r temperatures ls sh i o t kind RC IV H E T1 T2 K. destruct (C70_blocks _ _ _ _ _ _ RC IV H) as (S1 & S2 & _).
  assert (EM : nth_error (map so_mode outs) i = Some (so_mode o)) by (rewrite nth_error_map, E; reflexivity). split.
  - intros (s & I & EK & F & G). destruct (S1 s I) as (_ & a & b & (_ & W & _) & EF & ET). rewrite EF in F. rewrite ET in G. rewrite EK in W.
    assert (X : (Z.of_nat a * sr_iv r < (Z.of_nat i + 1) * sr_iv r)%Z) by (apply qz_lt; lra).
    assert (Y : (Z.of_nat i * sr_iv r < Z.of_nat b * sr_iv r)%Z) by (apply qz_lt; lra).
    apply Z.mul_lt_mono_pos_r in X; [|exact IV]. apply Z.mul_lt_mono_pos_r in Y; [|exact IV].
    specialize (W i ltac:(lia)). congruence.
  - intros <-. destruct (block_around _ _ _ EM) as (a & b & AB & W). destruct (S2 _ a b K W) as (s & I & EK & F & G). exists s. split; [exact I|]. split; [exact EK|].
    rewrite F, G. split.
    + apply Qle_trans with (qz (Z.of_nat i * sr_iv r)); [|exact T1]. apply qz_le. apply Z.mul_le_mono_nonneg_r; lia.
    + apply Qlt_le_trans with (qz ((Z.of_nat i + 1) * sr_iv r)); [exact T2|]. apply qz_le. apply Z.mul_le_mono_nonneg_r; lia.
Qed.
Print Assumptions C70_instants.

(** plot_simulation on an engine: it fails exactly as the three-day simulation does, and otherwise shows the
    steps of that simulation, for the engine's own supply temperature. *)
Theorem C70_engine : forall dt p e temperatures, eng_new dt p = Ok e ->
  (forall x, eng_simulate e "3day" 5 10 = Err x -> eng_plot_simulation e temperatures = Err x) /\
  (forall e' r, eng_simulate e "3day" 5 10 = Ok (e', r) ->
     exists outs ls sh, eng_plot_simulation e temperatures = Ok (e', (ls, sh)) /\
       reported (ep_supply p) 5 10 4320 1 outs r /\
       Forall2 (line_shows 1 outs)
         (volume_lines (ep_supply p) 1 ++ (if temperatures then temperature_lines else []) ++
          (if sr_show_tm r then panel_lines else [])) ls /\
       (sr_show_tm r = true <-> type_of (en_system e) = SwingTank) /\
       run_plot (Some (ep_supply p)) r temperatures = Ok (ls, sh)).
Proof.
  intros dt p e temperatures H. split.
  - intros x E. unfold eng_plot_simulation. rewrite E. reflexivity.
  - intros e' r E. destruct (engine_says _ _ _ _ _ _ E) as (total & iv & outs & LA & IV & RP & SW & SAY).
    assert (SU : sim_supply (en_system e) = ep_supply p).
    { destruct (engine_assembled _ _ _ H) as (hs & vol & A). destruct (assembled_parts _ _ _ _ _ A) as (T & _).
      destruct (en_system e); cbn in *; congruence. }
    rewrite SU in RP. destruct LA as [(_ & -> & ->)|(X & _)]; [|discriminate].
    assert (IN : forall o, In o outs -> exists k, nth_error outs k = Some o) by (intros o I; apply In_nth_error; exact I).
    assert (NE : outs <> []).
    { intros ->. destruct (sr_stopped r) eqn:ST; [|pose proof (rp_full _ _ _ _ _ _ _ RP ST) as X; discriminate X].
      destruct (proj1 (rp_stopped _ _ _ _ _ _ _ RP) ST) as (k & K1 & (K2 & K3) & _). destruct (K3 O) as (o & X & _); [change (@length step_out []) with O; destruct k; lia|discriminate]. }
    pose proof (rp_interval _ _ _ _ _ _ _ RP) as EI.
    destruct (C70_lines (ep_supply p) outs r temperatures (rp_recorded _ _ _ _ _ _ _ RP)) as (ls & sh & EP & F).
    + rewrite EI. reflexivity.
    + intros _. split; [exact NE|]. intros o I. destruct (IN o I) as (k & EK). apply (SAY k o EK).
    + intros TM o I. destruct (IN o I) as (k & EK). apply (SAY k o EK). exact TM.
    + rewrite EI in F. exists outs, ls, sh. unfold eng_plot_simulation. rewrite E. cbn [bind]. rewrite SU, EP. cbn [bind]. auto.
Qed.
Print Assumptions C70_engine.

(** The shading follows the load-shift schedule the engine was given: in every minute simulated, shed (or
    load-up) shading is there exactly in the shed (or load-up) hours of the day. *)
Theorem C70_hours : forall dt p e temperatures e' lines sh ls (n : Z) t day hour,
  eng_new dt p = Ok e -> given_schedule p ls -> primary_heaters (en_system e) <> [] ->
  eng_plot_simulation e temperatures = Ok (e', (lines, sh)) ->
  (exists r, eng_simulate e "3day" 5 10 = Ok (e', r) /\ n = Z.of_nat (length (sr_demand r))) ->
  (0 <= day)%Z -> (0 <= hour < 24)%Z ->
  qz (60 * (24 * day + hour)) <= t -> t < qz (60 * (24 * day + hour + 1)) -> t < qz n ->
  (shaded sh "shed" t <-> shed_hour ls (Z.to_nat hour)) /\
  (shaded sh "loadUp" t <-> load_up_hour ls (ep_lu_hours p) (Z.to_nat hour)).
Proof.
  intros dt p e temperatures e' lines sh ls n t day hour H GS NH PL (r & ER & ->) D0 HR T1 T2 T3.
  destruct (engine_says _ _ _ _ _ _ ER) as (total & iv & outs & LA & IV & RP & SW & SAY).
  destruct LA as [(_ & -> & ->)|(X & _)]; [|discriminate]. pose proof (rp_interval _ _ _ _ _ _ _ RP) as EI. pose proof (rp_recorded _ _ _ _ _ _ _ RP) as RC.
  rewrite (rc_demand _ _ RC), map_length in T3.
  unfold eng_plot_simulation in PL. rewrite ER in PL. cbn [bind] in PL. destruct (bind_ok _ _ _ PL) as ([l' s'] & EP & P1). apply ok_inj in P1.
  apply pair_equal_spec in P1. destruct P1 as [_ P1]. apply pair_equal_spec in P1. destruct P1 as [-> ->].
  set (i := Z.to_nat (Qfloor t)). assert (T0 : 0 <= t) by (apply Qle_trans with (qz (60 * (24 * day + hour))); [change 0 with (qz 0); apply qz_le; lia|exact T1]).
  assert (F0 : (0 <= Qfloor t)%Z) by (change 0%Z with (Qfloor 0); apply Qfloor_resp_le; exact T0).
  assert (I1 : qz (Z.of_nat i) <= t) by (unfold i; rewrite Z2Nat.id by exact F0; apply Qfloor_le).
  assert (I2 : t < qz (Z.of_nat i + 1)) by (unfold i; rewrite Z2Nat.id by exact F0; apply Qlt_floor).
  assert (LO : (i < length outs)%nat). { assert (X : (Z.of_nat i < Z.of_nat (length outs))%Z) by (apply qz_lt; lra). lia. }
  destruct (nth_error outs i) as [o|] eqn:EO; [|apply nth_error_None in EO; lia].
  assert (HI : (60 * (24 * day + hour) <= Z.of_nat i < 60 * (24 * day + hour + 1))%Z).
  { split; [|apply qz_lt; lra]. assert (X : (60 * (24 * day + hour) < Z.of_nat i + 1)%Z) by (apply qz_lt; lra). lia. }
  assert (HO : hour_of (Z.of_nat i) 1 = hour).
  { unfold hour_of. rewrite Z.mul_1_r. replace (Z.of_nat i / 60)%Z with (hour + day * 24)%Z by (apply (Z.div_unique _ _ _ (Z.of_nat i - 60 * (24 * day + hour))); lia).
    rewrite Z.mod_add by lia. apply Z.mod_small. exact HR. }
  destruct (SAY i o EO) as (MO & _). rewrite HO in MO.
  destruct (primary_heaters (en_system e)) as [|h hs] eqn:EH; [contradiction|]. cbn [mode_for] in MO.
  destruct (C51_schedule dt p e h ls H ltac:(rewrite EH; left; reflexivity) GS) as (sched & ES & L24 & LB). rewrite ES in MO.
  destruct sched as [|x sched]; [discriminate|]. apply py_nth_nonneg_inv in MO; [|lia]. destruct (LB _ _ MO) as (B1 & B2 & _ & _).
  rewrite <- B1, <- B2. assert (IVr : (0 < sr_iv r)%Z) by (rewrite EI; reflexivity).
  split; apply (C70_instants _ _ _ _ _ _ i o t _ RC IVr EP EO); try (rewrite EI, Z.mul_1_r; assumption); tauto.
Qed.
Print Assumptions C70_hours.

(** Without a schedule nothing is shaded. *)
Theorem C70_unshaded : forall dt p e temperatures e' lines sh,
  eng_new dt p = Ok e -> (forall ls, ~ given_schedule p ls) ->
  eng_plot_simulation e temperatures = Ok (e', (lines, sh)) -> sh = [].
Proof.
  intros dt p e temperatures e' lines sh H NS PL. unfold eng_plot_simulation in PL. destruct (bind_ok _ _ _ PL) as ([e2 r] & ER & P0).
  destruct (bind_ok _ _ _ P0) as ([l' s'] & EP & P1). apply ok_inj in P1. apply pair_equal_spec in P1. destruct P1 as [_ P1]. apply pair_equal_spec in P1. destruct P1 as [-> ->].
  destruct (engine_says _ _ _ _ _ _ ER) as (total & iv & outs & LA & IV & RP & SW & SAY). pose proof (rp_interval _ _ _ _ _ _ _ RP) as EI.
  destruct (C70_blocks _ _ _ _ _ _ (rp_recorded _ _ _ _ _ _ _ RP) ltac:(rewrite EI; exact IV) EP) as (S1 & _). destruct sh as [|s sh]; [reflexivity|exfalso].
  destruct (S1 s (or_introl eq_refl)) as (K & a & b & (AB & W & _) & _). specialize (W a ltac:(lia)). rewrite nth_error_map in W.
  destruct (nth_error outs a) as [o|] eqn:EO; [|discriminate]. injection W as W. destruct (SAY a o EO) as (MO & _). rewrite W in MO.
  assert (X : sh_kind s = "normal"%string).
  { destruct (primary_heaters (en_system e)) as [|h hs] eqn:EH; cbn [mode_for] in MO; [apply ok_inj in MO; congruence|].
    destruct (C51_no_schedule dt p e h H ltac:(rewrite EH; left; reflexivity) NS) as (ES & _). rewrite ES in MO. change (repeat "normal"%string 24) with ("normal"%string :: repeat "normal"%string 23) in MO. cbv iota in MO.
    apply py_nth_in in MO. change ("normal"%string :: repeat "normal"%string 23) with (repeat "normal"%string 24) in MO. exact (repeat_spec _ _ _ MO). }
  rewrite X in K. destruct K; discriminate.
Qed.
Print Assumptions C70_unshaded.

(** A pre-sized engine that sheds from midnight to one: its plot succeeds, and its first minute is shaded as
    shed, not as load-up; without the schedule nothing is shaded. *)
Definition ex_shed_midnight : list Z := 0%Z :: repeat 1%Z 23.
Definition ex_night (ls : option (list Z)) : eparams := ex_params "sprtp" ls 2 (Some (8 # 10)) (Some 500) (Some 100).
Example C70_case :
  (exists e e' ls sh, eng_new ex_data (ex_night (Some ex_shed_midnight)) = Ok e /\
     eng_plot_simulation e true = Ok (e', (ls, sh)) /\ length ls = 11%nat /\ shaded sh "shed" 0 /\ ~ shaded sh "loadUp" 0) /\
  (exists e e' ls, eng_new ex_data (ex_night None) = Ok e /\ eng_plot_simulation e true = Ok (e', (ls, []))).
Proof.
  assert (K : forall ls, ls = None \/ ls = Some ex_shed_midnight -> exists e e' r, eng_new ex_data (ex_night ls) = Ok e /\ primary_heaters (en_system e) <> [] /\
    type_of (en_system e) <> SwingTank /\ eng_simulate e "3day" 5 10 = Ok (e', r)).
  { intros ls D. assert (EB : exists b, eng_building ex_data (ex_night ls) = Ok b) by (eexists; vm_compute; reflexivity). destruct EB as (b & EB).
    assert (CB : complete b). { vm_compute in EB. injection EB as <-. split; [discriminate|]. split; [discriminate|]. eexists. split; [reflexivity|]. split; left; discriminate. }
    vm_compute in EB. injection EB as EB. assert (EE : exists e, eng_new ex_data (ex_night ls) = Ok e) by (destruct D as [->| ->]; eexists; vm_compute; reflexivity).
    destruct EE as (e & EE). exists e. assert (X : en_building e = b /\ type_of (en_system e) = SinglePassRTP /\ primary_volume (en_system e) = Some 500 /\
      Forall rated (primary_heaters (en_system e)) /\ second_tank (en_system e) = None /\ primary_heaters (en_system e) <> []).
    { pose proof EE as E2. destruct D as [->| ->]; vm_compute in E2; rewrite EB in E2; injection E2 as <-; (split; [reflexivity|]; split; [reflexivity|]; split; [reflexivity|]; split;
        [cbn [en_system primary_heaters bs_heaters]; repeat apply Forall_cons; try apply Forall_nil; apply nominal_rated; discriminate|split; [reflexivity|discriminate]]). }
    destruct X as (X1 & X2 & X3 & X4 & X5 & X6).
    destruct (C65_completes ex_data _ e "3day" 5 10 EE) as (e' & r & ER).
    - intros l h _ _ _. discriminate.
    - rewrite X1. exact CB.
    - left. reflexivity.
    - rewrite X2. discriminate.
    - intros _. exists 500. split; [exact X3|reflexivity].
    - exact X4.
    - rewrite X5. discriminate.
    - rewrite X2. discriminate.
    - rewrite X2. discriminate.
    - exists e', r. rewrite X2. repeat split; try assumption. discriminate. }
  split.
  - destruct (K _ (or_intror eq_refl)) as (e & e' & r & E & NH & NS & ER). destruct (C70_engine _ _ _ true E) as [_ PE]. destruct (PE e' r ER) as (outs & ls & sh & EP & RP & F & SW & _).
    exists e, e', ls, sh. split; [exact E|]. split; [exact EP|]. split.
    { destruct (sr_show_tm r); [exfalso; apply NS; apply SW; reflexivity|]. assert (FL : forall A B (R : A -> B -> Prop) l m, Forall2 R l m -> length m = length l) by (induction 1; cbn; congruence). rewrite (FL _ _ _ _ _ F). reflexivity. }
    assert (GS : given_schedule (ex_night (Some ex_shed_midnight)) ex_shed_midnight) by (split; [reflexivity|discriminate]).
    assert (NE : (0 < length outs)%nat). { destruct outs; [|cbn; lia]. exfalso. destruct RP as [_ _ RC _ _ RS RF].
      destruct (sr_stopped r) eqn:ST; [|pose proof (RF eq_refl) as X; discriminate X]. destruct (proj1 RS eq_refl) as (k & K1 & (K2 & K3) & _). destruct (K3 O) as (o & X & _); [change (@length step_out []) with O; destruct k; lia|discriminate]. }
    destruct (C70_hours _ _ _ true e' ls sh ex_shed_midnight (Z.of_nat (length (sr_demand r))) 0 0 0 E GS NH EP (ex_intro _ r (conj ER eq_refl)) ltac:(lia) ltac:(lia)) as [H1 H2]; [discriminate|reflexivity| |].
    { rewrite (rc_demand _ _ (rp_recorded _ _ _ _ _ _ _ RP)), map_length. unfold qz, Qlt. cbn. lia. }
    split; [apply H1; reflexivity|]. intro X. apply H2 in X. destruct X as (k & [_ X1] & X2 & _). exact (X1 O X2 eq_refl).
  - destruct (K _ (or_introl eq_refl)) as (e & e' & r & E & NH & NS & ER). destruct (C70_engine _ _ _ true E) as [_ PE]. destruct (PE e' r ER) as (outs & ls & sh & EP & _).
    exists e, e', ls. split; [exact E|]. rewrite EP. rewrite (C70_unshaded _ _ _ true e' ls sh E); [reflexivity| |exact EP]. intros l [X _]. discriminate X.
Qed.
