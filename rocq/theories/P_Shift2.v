(** C78, by the hour: load shifting on the design days. *)
From Verif Require Import Prelude M_Building M_Heater M_SimRun M_Step M_Engine S_Engine S_EngineRun S_EngineSize S_Lasts L_Lasts2 L_Lasts3 S_Shift L_Shift2
  P_Building P_Sizing P_Engine P_Engine6 P_Engine7 P_Lasts P_Shift.
Open Scope Q_scope.

Lemma hour_at_div n : hour_at 1 n = (n / 60 mod 24)%nat.
Proof.
  unfold hour_at. rewrite Z.mul_1_r. change 60%Z with (Z.of_nat 60). change 24%Z with (Z.of_nat 24). rewrite <- Nat2Z.inj_div, <- Nat2Z.inj_mod. apply Nat2Z.id.
Qed.

Section Hours.
Variables (p : eparams) (b : building) (vol inlet on_t k take : Q) (sensor : nat -> Q) (T : system_type).
Hypothesis WARM : inlet < ep_storage p.
Let need := takes p inlet (take / 60) (minute_draw b).
Let bring := heated k 1 (ep_storage p) inlet.
Let HN := hour_takes p b inlet take.
Let HB := heated k 60 (ep_storage p) inlet.

Lemma need_hour n : need n == HN (n / 60)%nat / 60.
Proof. unfold need, takes, HN, hour_takes, minute_draw, blended. rewrite hour_at_div. change (qz 1) with 1. field. lra. Qed.
Lemma bring_hour : bring == HB / 60.
Proof. unfold bring, HB, heated. change (qz 60) with 60. change (qz 1) with 1. field. repeat split; (lra || exact rho_nz || discriminate). Qed.
Lemma short_hour i n : shortfall need bring i n == shortfall (fun n => HN (n / 60)%nat / 60) (HB / 60) i n.
Proof. apply shortfall_ext. intros j _. rewrite need_hour, bring_hour. reflexivity. Qed.
Lemma left_hour j : left_in T p 1 vol on_t sensor j = hour_left T p vol on_t sensor (j / 60).
Proof. unfold left_in, hour_left. rewrite hour_at_div. reflexivity. Qed.
Lemma takes_day n : HN (n + 24)%nat = HN n.
Proof. unfold HN, hour_takes. replace ((n + 24) mod 24)%nat with (n mod 24)%nat; [reflexivity|]. replace (n + 24)%nat with (n + 1 * 24)%nat by lia. rewrite Nat.mod_add by lia. reflexivity. Qed.
Lemma takes_mod n : HN (n mod 24)%nat = HN n.
Proof. unfold HN, hour_takes. rewrite Nat.mod_mod by lia. reflexivity. Qed.
Lemma left_mod n : hour_left T p vol on_t sensor (n mod 24) = hour_left T p vol on_t sensor n.
Proof. unfold hour_left. rewrite Nat.mod_mod by lia. reflexivity. Qed.

Hypothesis DAY : shortfall HN HB 0 24 <= 0.
Hypothesis WIN : forall h n, (h < 24)%nat -> (n <= 24)%nat -> shortfall HN HB h n + HN h / 60 <= hour_left T p vol on_t sensor h /\
  shortfall HN HB (h + 1) n + HN h / 60 <= hour_left T p vol on_t sensor h.

Lemma next_mod h n : shortfall HN HB (h + 1) n == shortfall HN HB (h mod 24 + 1) n.
Proof.
  replace (h + 1)%nat with (h mod 24 + 1 + h / 24 * 24)%nat by (pose proof (Nat.div_mod_eq h 24); lia). apply (days_shift HN HB takes_day).
Qed.

Lemma every_minute j n : shortfall need bring (S j) n + need j <= left_in T p 1 vol on_t sensor j.
Proof.
  rewrite left_hour, need_hour, short_hour. set (a := (j / 60)%nat). pose proof (Nat.div_mod_eq j 60) as E. fold a in E. pose proof (Nat.mod_upper_bound j 60 ltac:(lia)) as B.
  replace (S j) with (60 * a + S (j mod 60))%nat by lia.
  assert (M : forall n, shortfall HN HB a n + HN a / 60 <= hour_left T p vol on_t sensor a /\ shortfall HN HB (a + 1) n + HN a / 60 <= hour_left T p vol on_t sensor a).
  { intro m. rewrite <- (left_mod a), <- (takes_mod a). pose proof (Nat.mod_upper_bound a 24 ltac:(lia)) as Ba.
    assert (X1 : shortfall HN HB a m <= hour_left T p vol on_t sensor (a mod 24) - HN (a mod 24)%nat / 60).
    { apply (days_from HN HB takes_day DAY). intros q Q. rewrite (hours_mod HN HB takes_day). destruct (WIN (a mod 24)%nat q Ba Q). lra. }
    assert (X2 : shortfall HN HB (a + 1) m <= hour_left T p vol on_t sensor (a mod 24) - HN (a mod 24)%nat / 60).
    { apply (days_from HN HB takes_day DAY). intros q Q. rewrite next_mod. destruct (WIN (a mod 24)%nat q Ba Q). lra. }
    lra. }
  assert (G : shortfall (fun n => HN (n / 60)%nat / 60) (HB / 60) (60 * a + S (j mod 60)) n <= hour_left T p vol on_t sensor a - HN a / 60).
  { apply (minutes_from HN HB); [intro m; destruct (M m); lra|intro m; destruct (M m); lra|lia]. }
  lra.
Qed.

Lemma from_start R n : (forall n, (n <= 24)%nat -> shortfall HN HB 0 n <= R) -> shortfall need bring 0 n <= R.
Proof.
  intros H0. rewrite short_hour. apply (minutes_whole HN HB R 0). apply (days_from HN HB takes_day DAY). exact H0.
Qed.

Variables (a w days : nat) (full : Q).
Hypothesis FILL : forall i, (a <= i < a + 24)%nat -> shortfall HN HB i (a + 24 - i) + HN i / 60 + full <= hour_left T p vol on_t sensor i /\
  shortfall HN HB (i + 1) (a + 24 - (i + 1)) + HN i / 60 + full <= hour_left T p vol on_t sensor i.

Lemma filled j : (j < 60 * (24 * days + a))%nat -> shortfall need bring (S j) (60 * (24 * days + a) - S j) + need j + full <= left_in T p 1 vol on_t sensor j.
Proof.
  intro L. rewrite left_hour, need_hour, short_hour. set (h := (j / 60)%nat). pose proof (Nat.div_mod_eq j 60) as E. fold h in E. pose proof (Nat.mod_upper_bound j 60 ltac:(lia)) as B.
  set (A := (24 * days + a)%nat) in *. assert (HA : (h < A)%nat) by lia.
  (* the same hour in the day that ends with hour a *)
  set (u := ((A - h - 1) / 24)%nat). set (v := ((A - h - 1) mod 24)%nat). pose proof (Nat.div_mod_eq (A - h - 1) 24) as E2. fold u v in E2.
  pose proof (Nat.mod_upper_bound (A - h - 1) 24 ltac:(lia)) as B2. fold v in B2. set (i := (a + 23 - v)%nat).
  assert (CONG : (h + (u + 1) * 24 = i + days * 24)%nat) by lia.
  assert (MI : (h mod 24 = i mod 24)%nat) by (rewrite <- (Nat.mod_add h (u + 1) 24), <- (Nat.mod_add i days 24) by lia; rewrite CONG; reflexivity).
  assert (SH : forall c n, shortfall HN HB (h + c) n == shortfall HN HB (i + c) n).
  { intros c n. rewrite <- (days_shift HN HB takes_day (u + 1) (h + c) n), <- (days_shift HN HB takes_day days (i + c) n). replace (h + c + (u + 1) * 24)%nat with (i + c + days * 24)%nat by lia. reflexivity. }
  destruct (FILL i ltac:(lia)) as [F1 F2].
  assert (EL : hour_left T p vol on_t sensor h = hour_left T p vol on_t sensor i) by (rewrite <- (left_mod h), <- (left_mod i), MI; reflexivity).
  assert (EH : HN h = HN i) by (rewrite <- (takes_mod h), <- (takes_mod i), MI; reflexivity). rewrite EL, EH.
  assert (G : shortfall (fun n => HN (n / 60)%nat / 60) (HB / 60) (60 * h + S (j mod 60)) (60 * (h + 1 + (A - h - 1)) - (60 * h + S (j mod 60))) <= hour_left T p vol on_t sensor i - HN i / 60 - full).
  { apply (minutes_to HN HB); [lia| |].
    - rewrite SH. replace (A - h - 1)%nat with ((a + 24 - (i + 1)) + u * 24)%nat by lia. pose proof (days_more HN HB takes_day DAY (i + 1) (a + 24 - (i + 1)) u). lra.
    - replace h with (h + 0)%nat at 1 by lia. rewrite SH, Nat.add_0_r. replace (1 + (A - h - 1))%nat with ((a + 24 - i) + u * 24)%nat by lia. pose proof (days_more HN HB takes_day DAY i (a + 24 - i) u). lra. }
  replace (60 * (h + 1 + (A - h - 1)))%nat with (60 * A)%nat in G by lia. replace (60 * h + S (j mod 60))%nat with (S j) in G by lia. lra.
Qed.

Hypothesis POS : forall h, 0 <= HN h.
Hypothesis KEEP : forall c, (c < w)%nat -> hour_left T p vol on_t sensor (a + c) + qsum (map HN (seq a (S c))) <= full.

Lemma qsum_short d i n : qsum (map d (seq i n)) == shortfall d 0 i n.
Proof.
  unfold shortfall. revert i. induction n as [|n IH]; intro i; [reflexivity|]. cbn [seq map qsum]. rewrite IH. ring.
Qed.

Lemma kept i : (i < 60 * w)%nat -> left_in T p 1 vol on_t sensor (60 * (24 * days + a) + i) + qsum (map need (seq (60 * (24 * days + a)) i)) <= full.
Proof.
  intro L. set (A := (24 * days + a)%nat). set (c := (i / 60)%nat). set (s := (i mod 60)%nat). pose proof (Nat.div_mod_eq i 60) as E. fold c s in E. pose proof (Nat.mod_upper_bound i 60 ltac:(lia)) as B. fold s in B.
  rewrite left_hour. replace ((60 * A + i) / 60)%nat with (A + c)%nat by (apply (Nat.div_unique _ 60 _ s); lia).
  assert (MA : forall n, hour_left T p vol on_t sensor (A + n) = hour_left T p vol on_t sensor (a + n)).
  { intro n. rewrite <- (left_mod (A + n)), <- (left_mod (a + n)). replace (A + n)%nat with (a + n + days * 24)%nat by lia. rewrite Nat.mod_add by lia. reflexivity. }
  rewrite MA, qsum_short. specialize (KEEP c ltac:(lia)). rewrite qsum_short, shortfall_S in KEEP.
  assert (X : shortfall need 0 (60 * A) i == shortfall (fun n => HN (n / 60)%nat / 60) (0 / 60) (60 * A) i).
  { apply shortfall_ext. intros j _. rewrite need_hour. change (0 / 60) with (0 # 60). setoid_replace (0 # 60) with 0 by reflexivity. reflexivity. }
  rewrite X, E, shortfall_split, (whole_hours HN 0). replace (60 * A + 60 * c)%nat with (60 * (A + c) + 0)%nat by lia. rewrite (in_hour HN 0) by lia.
  replace A with (a + days * 24)%nat by lia. rewrite (days_shift HN 0 takes_day).
  assert (EH : HN (a + days * 24 + c)%nat = HN (a + c)%nat).
  { rewrite <- (takes_mod (a + days * 24 + c)), <- (takes_mod (a + c)). replace (a + days * 24 + c)%nat with (a + c + days * 24)%nat by lia. rewrite Nat.mod_add by lia. reflexivity. }
  rewrite EH. destruct (part_of_hour s ltac:(lia)) as [W0 W1]. set (z := inject_Z (Z.of_nat s) / 60) in *.
  setoid_replace (inject_Z (Z.of_nat s) * ((HN (a + c)%nat - 0) / 60)) with (z * HN (a + c)%nat) by (unfold z; generalize (inject_Z (Z.of_nat s)); intros z1; field).
  specialize (POS (a + c)%nat). assert (z * HN (a + c)%nat <= 1 * HN (a + c)%nat) by (apply Qmult_le_compat_r; assumption). lra.
Qed.
End Hours.

Lemma takes_positive dt p ls e vol inlet on_t k take sensor off_sensor off_t :
  shifting dt p ls e "3day" 4320 1 vol inlet inlet inlet on_t k (take / 60) sensor off_sensor off_t (minute_draw (en_building e)) ->
  forall h, 0 <= hour_takes p (en_building e) inlet take h.
Proof.
  intros SH h. pose proof (sh_draws _ _ _ _ _ _ _ _ _ _ _ _ _ _ _ _ _ _ SH (60 * (h mod 24))%nat) as D. pose proof (Nat.mod_upper_bound h 24 ltac:(lia)) as B.
  destruct D as [_ D]; [lia|]. destruct (sh_temps _ _ _ _ _ _ _ _ _ _ _ _ _ _ _ _ _ _ SH) as (_ & _ & _ & WS & SS).
  assert (TK : 0 <= take / 60).
  { pose proof (sh_loop _ _ _ _ _ _ _ _ _ _ _ _ _ _ _ _ _ _ SH) as LT. destruct (sh_kind _ _ _ _ _ _ _ _ _ _ _ _ _ _ _ _ _ _ SH) as [K|[K|K]]; rewrite K in LT; cbn [loop_takes] in LT; try lra.
    destruct LT as (r & f & _ & _ & F0 & RS & ->). apply qdiv_nonneg; [|lra]. change (qz 1) with 1. apply Qmult_le_0_compat; lra. }
  unfold hour_takes, minute_draw, blended in *. rewrite hour_at_div in D. rewrite Nat.mul_comm, Nat.div_mul, Nat.mod_mod in D by lia. set (x := bd_daily (en_building e) * nth (h mod 24) (bd_avg (en_building e)) 0) in *.
  change (qz 1) with 1 in D. assert (0 <= x).
  { setoid_replace x with (x * 1 / 60 * 60) by field. apply Qmult_le_0_compat; [exact D|discriminate]. }
  assert (0 <= take) by (setoid_replace take with (take / 60 * 60) by field; apply Qmult_le_0_compat; [exact TK|discriminate]).
  assert (0 <= x * (ep_supply p - inlet) / (ep_storage p - inlet)) by (apply qdiv_nonneg; [apply Qmult_le_0_compat; lra|lra]). lra.
Qed.

(** On the three design days it is enough to look at whole hours: a day brings at least what it takes, and what any
    stretch of up to a day takes beyond what it brings, from the beginning of an hour or of the next, leaves a
    minute's worth of that hour's draw in the hot water its sensor guarantees. *)
Theorem C78_design_day : forall dt p ls e vol inlet on_t k take sensor off_sensor off_t thr maxm e' r,
  let b := en_building e in
  shifting dt p ls e "3day" 4320 1 vol inlet inlet inlet on_t k (take / 60) sensor off_sensor off_t (minute_draw b) ->
  let T := type_of (en_system e) in
  let need := hour_takes p b inlet take in
  let bring := heated k 60 (ep_storage p) inlet in
  let left := hour_left T p vol on_t sensor in
  shortfall need bring 0 24 <= 0 ->
  (forall h n, (h < 24)%nat -> (n <= 24)%nat -> shortfall need bring h n + need h / 60 <= left h /\ shortfall need bring (h + 1) n + need h / 60 <= left h) ->
  (forall n, (n <= 24)%nat -> shortfall need bring 0 n <= hot_at_start T p vol inlet) ->
  eng_simulate e "3day" thr maxm = Ok (e', r) ->
  never_out (ep_storage p) (qmin vol (vol * (ep_storage p - ep_supply p) / (100 * steepness T))) thr r.
Proof.
  intros dt p ls e vol inlet on_t k take sensor off_sensor off_t thr maxm e' r b SH T need bring left DAY WIN STA SIM.
  destruct (sh_temps _ _ _ _ _ _ _ _ _ _ _ _ _ _ _ _ _ _ SH) as (_ & _ & _ & WS & SS). assert (WARM : inlet < ep_storage p) by lra.
  refine (C78_lasts _ _ _ _ _ _ _ _ _ _ _ _ _ _ _ _ _ _ _ _ _ _ SH _ _ SIM).
  - intros j n _. exact (every_minute p b vol inlet on_t k take sensor T WARM DAY WIN j n).
  - intros n _. exact (from_start p b inlet k take WARM DAY _ n STA).
Qed.
Print Assumptions C78_design_day.

(** And the heaters rest in the [w] hours from hour [a] of a day when [full] hot gallons are there as they begin,
    whatever the 24 hours before and the start of the simulation have left, and the water drawn by the end of each
    of these hours leaves more of them than the hour's sensor needs. *)
Theorem C78_shed_hours : forall dt p ls e vol inlet on_t k take sensor off_sensor off_t thr maxm e' r day a w full,
  let b := en_building e in
  shifting dt p ls e "3day" 4320 1 vol inlet inlet inlet on_t k (take / 60) sensor off_sensor off_t (minute_draw b) ->
  let T := type_of (en_system e) in
  let need := hour_takes p b inlet take in
  let bring := heated k 60 (ep_storage p) inlet in
  let left := hour_left T p vol on_t sensor in
  shortfall need bring 0 24 <= 0 ->
  (forall h n, (h < 24)%nat -> (n <= 24)%nat -> shortfall need bring h n + need h / 60 <= left h /\ shortfall need bring (h + 1) n + need h / 60 <= left h) ->
  (forall n, (n <= 24)%nat -> shortfall need bring 0 n <= hot_at_start T p vol inlet) ->
  (a < 24)%nat -> shortfall need bring 0 (24 * day + a) + full <= hot_at_start T p vol inlet ->
  (forall i, (a <= i < a + 24)%nat -> shortfall need bring i (a + 24 - i) + need i / 60 + full <= left i /\
                                     shortfall need bring (i + 1) (a + 24 - (i + 1)) + need i / 60 + full <= left i) ->
  off_t a <= ep_storage p -> hot_reserve vol (steepness T) (ep_storage p) (off_sensor a) (off_t a) <= full ->
  (forall c, (c < w)%nat -> left (a + c)%nat + qsum (map need (seq a (S c))) <= full) ->
  eng_simulate e "3day" thr maxm = Ok (e', r) ->
  forall n, (60 * (24 * day + a) <= n < 60 * (24 * day + a + w))%nat ->
    (forall x, nth_error (sr_output r) n = Some x -> x == 0) /\
    (forall x, nth_error (sr_power r) n = Some x -> x = None).
Proof.
  intros dt p ls e vol inlet on_t k take sensor off_sensor off_t thr maxm e' r day a w full b SH T need bring left DAY WIN STA A24 ST2 FILL OT OFF KEEP SIM n L.
  destruct (sh_temps _ _ _ _ _ _ _ _ _ _ _ _ _ _ _ _ _ _ SH) as (_ & _ & _ & WS & SS). assert (WARM : inlet < ep_storage p) by lra.
  assert (HQ : hour_at 1 (60 * (24 * day + a)) = a).
  { rewrite hour_at_div. rewrite (Nat.mul_comm 60), Nat.div_mul by lia. replace (24 * day + a)%nat with (a + day * 24)%nat by lia. rewrite Nat.mod_add by lia. apply Nat.mod_small. exact A24. }
  replace n with (60 * (24 * day + a) + (n - 60 * (24 * day + a)))%nat by lia.
  refine (C78_rest _ _ _ _ _ _ _ _ _ _ _ _ _ _ _ _ _ _ thr maxm e' r (60 * (24 * day + a)) (60 * w) full SH _ _ _ _ _ _ _ SIM _ _).
  - intros j i _. exact (every_minute p b vol inlet on_t k take sensor T WARM DAY WIN j i).
  - intros i _. exact (from_start p b inlet k take WARM DAY _ i STA).
  - intros j J. exact (filled p b vol inlet on_t k take sensor T WARM DAY a day full FILL j J).
  - rewrite (short_hour p b inlet k take WARM). replace 0%nat with (60 * 0)%nat by reflexivity. rewrite whole_hours. exact ST2.
  - rewrite HQ. exact OT.
  - rewrite HQ. exact OFF.
  - intros i I. exact (kept p b vol inlet on_t take sensor T WARM a w day full (takes_positive _ _ _ _ _ _ _ _ _ _ _ _ SH) KEEP i I).
  - lia.
Qed.
Print Assumptions C78_shed_hours.

(** The pre-sized system of C78_case rests through the shed of each of the three days. *)
Example C78_days : exists e e' r, eng_new ex_data ex_shift = Ok e /\ eng_simulate e "3day" 5 60 = Ok (e', r) /\
  never_out 150 (qmin 1000 (1000 * (150 - 120) / (100 * (28 # 10)))) 5 r /\
  forall day n, (60 * (24 * day + 5) <= n < 60 * (24 * day + 7))%nat ->
    (forall x, nth_error (sr_output r) n = Some x -> x == 0) /\ (forall x, nth_error (sr_power r) n = Some x -> x = None).
Proof.
  destruct ex_shift_engine as (e & N & T & EB & SH & e' & r & SIM). exists e, e', r. split; [exact N|]. split; [exact SIM|].
  assert (S2 : shifting ex_data ex_shift ex_shed e "3day" 4320 1 1000 50 50 50 120 200 (0 / 60) ex_sensor ex_off (fun _ => 150) (minute_draw (en_building e))).
  { pose proof (SH (0 / 60) (Qeq_refl 0)) as X. rewrite EB. exact X. }
  clear SH. set (b := en_building e) in *. set (need := hour_takes ex_shift b 50 0). set (bring := heated 200 60 (ep_storage ex_shift) 50).
  assert (ND : forall h, 0 <= need h <= 88).
  { intro h. unfold need, hour_takes, blended. rewrite EB. cbn [bd_daily bd_avg]. change (ep_supply ex_shift) with 120. change (ep_storage ex_shift) with 150. pose proof (ex_shape_bound (h mod 24)).
    setoid_replace (1000 * nth (h mod 24) ex_shape 0 * (120 - 50) / (150 - 50) + 0) with (nth (h mod 24) ex_shape 0 * 700) by field. lra. }
  assert (BR : 208 <= bring) by discriminate.
  assert (SF : forall i n, shortfall need bring i n <= - (120) * inject_Z (Z.of_nat n)).
  { intros i n. induction n as [|n IH]; [rewrite shortfall_O; discriminate|]. rewrite shortfall_S, Nat2Z.inj_succ. unfold Z.succ. rewrite inject_Z_plus. change (inject_Z 1) with 1. specialize (ND (i + n)%nat). lra. }
  assert (SF0 : forall i n, shortfall need bring i n <= 0).
  { intros i n. specialize (SF i n). assert (0 <= inject_Z (Z.of_nat n)) by (change 0 with (inject_Z 0); rewrite <- Zle_Qle; lia). lra. }
  assert (LF : forall h, 50 <= hour_left PrimaryNoRecirc ex_shift 1000 120 ex_sensor h).
  { intro h. unfold hour_left. pose proof (Nat.mod_upper_bound h 24 ltac:(lia)) as L. set (u := (h mod 24)%nat) in *. clearbody u. do 24 (destruct u as [|u]; [discriminate|]). lia. }
  assert (N60 : forall h, 0 <= need h / 60 <= 2).
  { intro h. specialize (ND h). split; [apply qdiv_nonneg; [lra|reflexivity]|apply qdiv_le_iff; [reflexivity|lra]]. }
  assert (DAY : shortfall need bring 0 24 <= 0) by apply SF0.
  assert (WIN : forall h n, (h < 24)%nat -> (n <= 24)%nat -> shortfall need bring h n + need h / 60 <= hour_left (type_of (en_system e)) ex_shift 1000 120 ex_sensor h /\
     shortfall need bring (h + 1) n + need h / 60 <= hour_left (type_of (en_system e)) ex_shift 1000 120 ex_sensor h).
  { intros h n _ _. rewrite T. specialize (LF h). specialize (N60 h). pose proof (SF0 h n). pose proof (SF0 (h + 1)%nat n). lra. }
  assert (STA : forall n, (n <= 24)%nat -> shortfall need bring 0 n <= hot_at_start (type_of (en_system e)) ex_shift 1000 50).
  { intros n _. rewrite T. assert (H0 : 0 <= hot_at_start PrimaryNoRecirc ex_shift 1000 50) by discriminate. specialize (SF0 0%nat n). lra. }
  split.
  - pose proof (C78_design_day _ _ _ _ _ _ _ _ _ _ _ _ _ _ _ _ S2 DAY WIN STA SIM) as R. cbv zeta in R. rewrite T in R. exact R.
  - intros day n L. refine (C78_shed_hours _ _ _ _ _ _ _ _ _ _ _ _ _ _ e' r day 5 2 600 S2 DAY WIN STA _ _ _ _ _ _ SIM n _).
    + lia.
    + rewrite T. assert (H0 : 0 <= hot_at_start PrimaryNoRecirc ex_shift 1000 50) by discriminate. specialize (SF 0%nat (24 * day + 5)%nat).
      assert (G : 5 <= inject_Z (Z.of_nat (24 * day + 5))) by (change 5 with (inject_Z 5); rewrite <- Zle_Qle; lia). fold b need bring. lra.
    + intros i I. rewrite T. fold b need bring. assert (C : (i < 26)%nat \/ (27 <= i)%nat \/ i = 26%nat) by lia. specialize (N60 i). pose proof (SF0 i (5 + 24 - i)%nat). pose proof (SF0 (i + 1)%nat (5 + 24 - (i + 1))%nat).
      destruct C as [C|[C| ->]].
      * pose proof (SF i (5 + 24 - i)%nat) as S1. pose proof (SF (i + 1)%nat (5 + 24 - (i + 1))%nat) as S3. specialize (LF i).
        destruct (le_lt_dec 24 i) as [D|D].
        -- assert (LJ : 490 <= hour_left PrimaryNoRecirc ex_shift 1000 120 ex_sensor i).
           { assert (E : i = 24%nat \/ i = 25%nat) by lia. destruct E as [-> | ->]; discriminate. }
           assert (G : 3 <= inject_Z (Z.of_nat (5 + 24 - (i + 1)))) by (change 3 with (inject_Z 3); rewrite <- Zle_Qle; lia).
           assert (G2 : 3 <= inject_Z (Z.of_nat (5 + 24 - i))) by (change 3 with (inject_Z 3); rewrite <- Zle_Qle; lia). lra.
        -- assert (G : 5 <= inject_Z (Z.of_nat (5 + 24 - (i + 1)))) by (change 5 with (inject_Z 5); rewrite <- Zle_Qle; lia).
           assert (G2 : 5 <= inject_Z (Z.of_nat (5 + 24 - i))) by (change 5 with (inject_Z 5); rewrite <- Zle_Qle; lia). lra.
      * assert (LJ : 690 <= hour_left PrimaryNoRecirc ex_shift 1000 120 ex_sensor i).
        { assert (E : i = 27%nat \/ i = 28%nat) by lia. destruct E as [-> | ->]; discriminate. }
        lra.
      * pose proof (SF 26%nat (5 + 24 - 26)%nat) as S1. pose proof (SF (26 + 1)%nat (5 + 24 - (26 + 1))%nat) as S3. change (inject_Z (Z.of_nat (5 + 24 - 26))) with 3 in S1. change (inject_Z (Z.of_nat (5 + 24 - (26 + 1)))) with 2 in S3.
        assert (LJ : 490 <= hour_left PrimaryNoRecirc ex_shift 1000 120 ex_sensor 26) by discriminate. lra.
    + discriminate.
    + rewrite T. discriminate.
    + intros c C. rewrite T. fold b need. assert (E : c = 0%nat \/ c = 1%nat) by lia.
      pose proof (ND 5%nat). pose proof (ND 6%nat). assert (LJ : forall x, x = 5%nat \/ x = 6%nat -> hour_left PrimaryNoRecirc ex_shift 1000 120 ex_sensor x <= 100) by (intros x [-> | ->]; discriminate).
      destruct E as [-> | ->]; cbn [seq map qsum Nat.add]; [specialize (LJ 5%nat (or_introl eq_refl))|specialize (LJ 6%nat (or_intror eq_refl))]; lra.
    + clear -L. lia.
Qed.
