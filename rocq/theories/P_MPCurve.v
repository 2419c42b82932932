(** C84: the sizing curve of multi-pass systems. *)
From Verif Require Import Prelude M_StratifiedTank M_EnergyTank M_Building M_Heater M_Sizing S_Sizing M_SimRun M_Step M_MPRTP
  L_Building L_Sizing4 L_MPRTP2 L_Out L_Out2 P_MPRTP S_CaGpd M_CaGpd L_CaGpd S_MPCurve P_Sizing.
Open Scope Q_scope.

Lemma point_iff lib b x slope h c v :
  let s := mb_sys x in
  let sched := match ms_heaters s with w :: _ => wh_schedule w | [] => None end in
  let m := match ms_heaters s with w :: _ => wh_map w | [] => None end in
  mp_curve_point lib b x sched m (slope_or (mb_dhw x) slope) (sl_pu (ms_tank s)) h = Ok (Some (v, c)) <->
  design_at lib b x slope h c v /\ ~ v == 0.
Proof.
  cbv zeta. unfold mp_curve_point. cbv zeta. destruct (Qeq_bool h (dh_run (mb_dhw x))) eqn:EH.
  - apply Qeq_bool_iff in EH. destruct (dh_min_stor (mb_dhw x)) as [v0|] eqn:V; [destruct (dh_min_cap (mb_dhw x)) as [c0|] eqn:C|].
    + destruct (Qeq_bool v0 0) eqn:Z; split.
      * discriminate.
      * intros [[_ C' V'|y N _ _ _ _] NZ]; [|contradiction]. apply Qeq_bool_iff in Z. congruence.
      * intro H. injection H as <- <-. split; [apply own_design; assumption|apply Qeq_bool_neq; exact Z].
      * intros [[_ C' V'|y N _ _ _ _] NZ]; [|contradiction]. congruence.
    + split; [discriminate|]. intros [[_ C' V'|y N _ _ _ _] NZ]; [congruence|contradiction].
    + split; [discriminate|]. intros [[_ C' V'|y N _ _ _ _] NZ]; [congruence|contradiction].
  - assert (NH : ~ h == dh_run (mb_dhw x)) by (apply Qeq_bool_neq; exact EH).
    destruct (qltb h 9) eqn:H9.
    + split; [discriminate|]. apply qltb_true in H9. intros [[N _ _|y _ L _ _ _] NZ]; [contradiction|lra].
    + apply qltb_false in H9. 
      destruct (snd (mp_from_size _ _ _ _ _ _ _ _ _ _ _ _ _ _)) as [y|e] eqn:R.
      * change (redesign lib b x slope h = Ok y) in R.
        destruct (dh_min_stor (mb_dhw y)) as [v0|] eqn:V; [destruct (dh_min_cap (mb_dhw y)) as [c0|] eqn:C|].
        -- destruct (Qeq_bool v0 0) eqn:Z; split.
           ++ discriminate.
           ++ intros [[N _ _|y' _ _ R' C' V'] NZ]; [contradiction|]. apply Qeq_bool_iff in Z. congruence.
           ++ intro H. injection H as <- <-. split; [apply new_design with y; assumption|apply Qeq_bool_neq; exact Z].
           ++ intros [[N _ _|y' _ _ R' C' V'] NZ]; [contradiction|]. congruence.
        -- split; [discriminate|]. intros [[N _ _|y' _ _ R' C' V'] NZ]; [contradiction|congruence].
        -- split; [discriminate|]. intros [[N _ _|y' _ _ R' C' V'] NZ]; [contradiction|congruence].
      * change (redesign lib b x slope h = Err e) in R. split; [destruct e; discriminate|]. intros [[N _ _|y' _ _ R' C' V'] NZ]; [contradiction|congruence].
Qed.

Lemma mloop_sound pt num de hs : forall rec acc rec' pts, mp_curve_loop pt num de hs rec acc = Ok (rec', pts) ->
  forall g c v, In (g, c, v) pts -> In (g, c, v) acc \/
    exists h, In h hs /\ pt h = Ok (Some (v, c)) /\ ~ c * de == 0 /\ g = py_round1 (num / (c * de)).
Proof.
  induction hs as [|h hs IH]; intros rec acc rec' pts H g c v I; cbn [mp_curve_loop] in H.
  - apply ok_inj in H. apply pair_equal_spec in H. destruct H as [_ <-]. left. exact I.
  - apply bind_ok in H. destruct H as ([[vol cap]|] & P & H).
    + apply bind_ok in H. destruct H as (q & D & H). apply qdiv_inv in D. destruct D as [NZ ->].
      destruct (existsb _ acc) in H.
      * destruct (IH _ _ _ _ H g c v I) as [A|(h' & I' & A)]; [left; exact A|right; exists h'; split; [right; exact I'|exact A]].
      * destruct (IH _ _ _ _ H g c v I) as [A|(h' & I' & A)]; [|right; exists h'; split; [right; exact I'|exact A]].
        apply in_app_or in A. destruct A as [A|[A|[]]]; [left; exact A|right]. injection A as <- <- <-.
        exists h. split; [left; reflexivity|]. auto.
    + apply ok_inj in H. apply pair_equal_spec in H. destruct H as [_ <-]. left. exact I.
Qed.

Lemma mloop_keeps pt num de hs : forall rec acc rec' pts, mp_curve_loop pt num de hs rec acc = Ok (rec', pts) ->
  forall p, In p acc -> In p pts.
Proof.
  induction hs as [|h hs IH]; intros rec acc rec' pts H p I; cbn [mp_curve_loop] in H.
  - apply ok_inj in H. apply pair_equal_spec in H. destruct H as [_ <-]. exact I.
  - apply bind_ok in H. destruct H as ([[vol cap]|] & P & H).
    + apply bind_ok in H. destruct H as (q & D & H). destruct (existsb _ acc) in H; apply (IH _ _ _ _ H); [exact I|apply in_or_app; left; exact I].
    + apply ok_inj in H. apply pair_equal_spec in H. destruct H as [_ <-]. exact I.
Qed.

Lemma mloop_complete pt num de pre h post : forall rec acc rec' pts, mp_curve_loop pt num de (pre ++ h :: post) rec acc = Ok (rec', pts) ->
  (forall h', In h' (pre ++ [h]) -> exists c v, pt h' = Ok (Some (v, c))) ->
  forall c v, pt h = Ok (Some (v, c)) -> exists g c' v', In (g, c', v') pts /\ g <= py_round1 (num / (c * de)) /\
    ((forall g' c2 v2, In (g', c2, v2) acc -> py_round1 (num / (c * de)) < g') ->
     (forall h' c2 v2, In h' pre -> pt h' = Ok (Some (v2, c2)) -> py_round1 (num / (c * de)) < py_round1 (num / (c2 * de))) ->
     In (py_round1 (num / (c * de)), c, v) pts).
Proof.
  induction pre as [|p pre IH]; intros rec acc rec' pts H A c v PH; cbn [app mp_curve_loop] in H.
  - rewrite PH in H. cbn [bind] in H. apply bind_ok in H. destruct H as (q & D & H). apply qdiv_inv in D. destruct D as [NZ ->].
    destruct (existsb _ acc) eqn:EX in H.
    + apply existsb_exists in EX. destruct EX as ([[g c'] v'] & I & L). apply Qle_bool_iff in L. cbn [fst] in L.
      exists g, c', v'. split; [exact (mloop_keeps _ _ _ _ _ _ _ _ H _ I)|]. split; [exact L|]. intros AA _. specialize (AA _ _ _ I). lra.
    + assert (IN : In (py_round1 (num / (c * de)), c, v) pts) by (apply (mloop_keeps _ _ _ _ _ _ _ _ H); apply in_or_app; right; left; reflexivity).
      exists (py_round1 (num / (c * de))), c, v. split; [exact IN|]. split; [lra|]. intros _ _. exact IN.
  - destruct (A p (or_introl eq_refl)) as (c1 & v1 & P1). rewrite P1 in H. cbn [bind] in H.
    apply bind_ok in H. destruct H as (q & D & H). apply qdiv_inv in D. destruct D as [NZ ->].
    assert (A' : forall h', In h' (pre ++ [h]) -> exists c v, pt h' = Ok (Some (v, c))) by (intros h' I; apply A; right; exact I).
    destruct (existsb _ acc) in H.
    + destruct (IH _ _ _ _ H A' c v PH) as (g & c' & v' & I & L & X). exists g, c', v'. split; [exact I|]. split; [exact L|].
      intros AA PP. apply X; [exact AA|]. intros h' c2 v2 I2. apply PP. right. exact I2.
    + destruct (IH _ _ _ _ H A' c v PH) as (g & c' & v' & I & L & X). exists g, c', v'. split; [exact I|]. split; [exact L|].
      intros AA PP. apply X.
      * intros g' c2 v2 I2. apply in_app_or in I2. destruct I2 as [I2|[I2|[]]]; [exact (AA _ _ _ I2)|]. injection I2 as <- <- <-. apply (PP p c1 v1); [left; reflexivity|exact P1].
      * intros h' c2 v2 I2. apply PP. right. exact I2.
Qed.

(** The pieces of a curve that was returned. *)
Lemma mp_curve_inv lib x b slope step b' cv : 0 < step -> mp_sizing_curve lib x b slope step = (b', Ok cv) ->
  exists b1 inlet lo hs rec pts, (if bd_is_annual b then bd_set_daily lib b else Ok b) = Ok b1 /\ design_inlet b1 = Ok inlet /\ min_run_hr b1 = Ok lo /\
    arange (dh_run (mb_dhw x)) lo (- step) = Ok hs /\
    mp_curve_loop (mp_curve_point lib b1 x (match ms_heaters (mb_sys x) with w :: _ => wh_schedule w | [] => None end)
       (match ms_heaters (mb_sys x) with w :: _ => wh_map w | [] => None end) (slope_or (mb_dhw x) slope) (sl_pu (ms_tank (mb_sys x))))
      (bd_daily b1 * rho_cp * (dh_supply (mb_dhw x) - inlet) / 1000 + recirc_loss (mb_dhw x) (ms_return (mb_sys x)) (ms_flow (mb_sys x)) * 24)
      (dh_defrost (mb_dhw x)) hs None [] = Ok (rec, pts) /\ falling pts /\
    cv_hours cv = map (fun p => fst (fst p)) pts /\ cv_capacity cv = map (fun p => snd (fst p)) pts /\ cv_storage cv = map snd pts.
Proof.
  intros Hst H. unfold mp_sizing_curve in H. destruct (if bd_is_annual b then bd_set_daily lib b else Ok b) as [b1|] eqn:Eb; [|discriminate].
  unfold restore_annual in H. set (body := mp_curve_body _ _ _ _ _ _ _ _) in H.
  assert (B : body = Ok cv) by (destruct (bd_is_annual b); [destruct (bd_set_annual lib b1)|]; congruence).
  clear H. unfold body, mp_curve_body in B. clear body.
  apply bind_ok in B. destruct B as (inl & I1 & B). apply bind_ok in B. destruct B as (lo & LO & B).
  apply bind_ok in B. destruct B as (hs & HS & B). apply bind_ok in B. destruct B as ([rec pts] & L & B). cbv beta iota in B.
  assert (FA : falling pts).
  { clear B HS. revert L. generalize (@None Q) as r0. assert (F0 : falling []) by exact I. revert F0. generalize (@nil (Q * Q * Q)) as acc.
    induction hs as [|h hs IH]; intros acc F0 r0 L; cbn [mp_curve_loop] in L.
    - apply ok_inj in L. apply pair_equal_spec in L. destruct L as [_ <-]. exact F0.
    - apply bind_ok in L. destruct L as ([[vol cap]|] & P & L).
      + apply bind_ok in L. destruct L as (q & D & L). destruct (existsb _ acc) eqn:EX in L; [exact (IH _ F0 _ L)|].
        refine (IH _ _ _ L). apply falling_app; [exact F0|]. intros y Y. cbn [fst].
        destruct (Qlt_le_dec (py_round1 q) (fst (fst y))) as [|C]; [assumption|]. exfalso.
        assert (X : existsb (fun p : Q * Q * Q => Qle_bool (fst (fst p)) (py_round1 q)) acc = true).
        { apply existsb_exists. exists y. split; [exact Y|]. apply Qle_bool_iff. exact C. }
        congruence.
      + apply ok_inj in L. apply pair_equal_spec in L. destruct L as [_ <-]. exact F0. }
  exists b1, inl, lo, hs, rec, pts. split; [reflexivity|]. split; [exact I1|]. split; [exact LO|]. split; [exact HS|]. split; [exact L|]. split; [exact FA|].
  rewrite (sort_falling _ FA) in B. destruct pts as [|p pts]; apply ok_inj in B; subst cv; cbn [cv_hours cv_capacity cv_storage]; auto.
Qed.

Lemma day_kbtu_eq x b inlet : bd_daily b * rho_cp * (dh_supply (mb_dhw x) - inlet) / 1000 + recirc_loss (mb_dhw x) (ms_return (mb_sys x)) (ms_flow (mb_sys x)) * 24
  == day_kbtu (bd_daily b) (dh_supply (mb_dhw x)) inlet (ms_flow (mb_sys x)) (ms_return (mb_sys x)).
Proof. unfold day_kbtu, recirc_loss. field. Qed.

Lemma py_round1_nearest x : nearest_tenth x (py_round1 x).
Proof. exact (round1_nearest x). Qed.
Lemma nearest_tenth_eq x y g : x == y -> nearest_tenth x g -> nearest_tenth y g.
Proof. intros E (z & G & A & B). exists z. rewrite <- E. auto. Qed.

Lemma nearest_mono x y g k : x <= y -> nearest_tenth x g -> nearest_tenth y k -> g <= k.
Proof.
  intros L (z & G & A & AE) (w & K & B & BE). rewrite G, K.
  destruct (Z.le_gt_cases z w) as [ZW|ZW].
  { apply Qmult_le_compat_r; [|discriminate]. unfold qz. rewrite <- Zle_Qle. exact ZW. }
  exfalso. apply Qabs_Qle_condition in A. apply Qabs_Qle_condition in B.
  assert (ZW1 : qz w + 1 <= qz z). { unfold qz. change 1 with (inject_Z 1). rewrite <- inject_Z_plus, <- Zle_Qle. lia. }
  destruct A as [A1 A2], B as [B1 B2].
  assert (E1 : qz z - 10 * x == 1 # 2) by lra. assert (E2 : qz w - 10 * y == - (1 # 2)) by lra.
  assert (E3 : Z.Even z) by (apply AE; rewrite E1; reflexivity). assert (E4 : Z.Even w) by (apply BE; rewrite E2; reflexivity).
  assert (z = w + 1)%Z.
  { apply inject_Z_injective. rewrite inject_Z_plus. change (inject_Z z) with (qz z). change (inject_Z w) with (qz w). change (inject_Z 1) with 1. lra. }
  subst z. destruct E3 as [p P], E4 as [q Q]. lia.
Qed.

(** Each point of the curve is the capacity and storage of the system itself or of a new design for fewer hours, of at least
    nine, down to those at which the busiest hour still needs storage; the hours shown are those the point's capacity needs
    for the day's heat, to the nearest tenth. *)
Theorem C84_points : forall lib x b slope step b' cv, 0 < step -> mp_sizing_curve lib x b slope step = (b', Ok cv) ->
  exists b1 inlet, (if bd_is_annual b then bd_set_daily lib b else Ok b) = Ok b1 /\ design_inlet b1 = Ok inlet /\
    forall i g c v, nth_error (cv_hours cv) i = Some g -> nth_error (cv_capacity cv) i = Some c -> nth_error (cv_storage cv) i = Some v ->
      exists k, design_at lib b1 x slope (swept x step k) c v /\ ~ v == 0 /\
        ((forall p, In p (bd_peak b1) -> 0 <= p) -> peaky b1 (swept x step k)) /\
        nearest_tenth (day_kbtu (bd_daily b1) (dh_supply (mb_dhw x)) inlet (ms_flow (mb_sys x)) (ms_return (mb_sys x)) / (c * dh_defrost (mb_dhw x))) g.
Proof.
  intros lib x b slope step b' cv Hst H. destruct (mp_curve_inv _ _ _ _ _ _ _ Hst H) as (b1 & inlet & lo & hs & rec & pts & EB & EI & LO & HS & L & FA & H1 & H2 & H3).
  exists b1, inlet. split; [exact EB|]. split; [exact EI|]. intros i g c v N1 N2 N3. rewrite H1, nth_error_map in N1. rewrite H2, nth_error_map in N2. rewrite H3, nth_error_map in N3.
  destruct (nth_error pts i) as [[[g0 c0] v0]|] eqn:EP; [|discriminate]. cbn in N1, N2, N3. injection N1 as ->. injection N2 as ->. injection N3 as ->.
  destruct (mloop_sound _ _ _ _ _ _ _ _ L g c v (nth_error_In _ _ EP)) as [[]|(h & IH & PT & NZ & G)].
  apply (proj1 (point_iff lib b1 x slope h c v)) in PT. destruct PT as [DA NV].
  assert (SW : exists k, h = swept x step k).
  { unfold arange in HS. destruct (Qeq_bool (- step) 0); [discriminate|]. apply ok_inj in HS. subst hs. apply in_map_iff in IH. destruct IH as (k & <- & _). exists k. reflexivity. }
  destruct SW as (k & ->). exists k. split; [exact DA|]. split; [exact NV|]. split.
  - intro SH. destruct (min_run_spec _ _ SH LO) as (p & IP & EP'). exists p. split; [exact IP|].
    destruct (arange_desc _ _ _ _ Hst HS) as (_ & B & _). destruct (B _ IH) as [_ LT].
    assert (P0 : 0 < p). { destruct (Qlt_le_dec 0 p) as [Y|Y]; [exact Y|]. exfalso. assert (Z : p == 0) by (specialize (SH p IP); lra). rewrite Z in EP'. lra. }
    rewrite <- EP'. apply Qmult_lt_compat_r; assumption.
  - subst g. eapply nearest_tenth_eq; [|apply py_round1_nearest]. rewrite <- day_kbtu_eq. reflexivity.
Qed.
Print Assumptions C84_points.

Lemma design_capacity lib x b1 slope h c v inlet : bd_is_annual b1 = false -> design_inlet b1 = Ok inlet ->
  0 < h -> 0 < dh_defrost (mb_dhw x) -> 0 < day_kbtu (bd_daily b1) (dh_supply (mb_dhw x)) inlet (ms_flow (mb_sys x)) (ms_return (mb_sys x)) ->
  (forall c0, dh_min_cap (mb_dhw x) = Some c0 -> 0 < c0) -> design_at lib b1 x slope h c v ->
  0 < c /\ (~ h == dh_run (mb_dhw x) ->
    day_kbtu (bd_daily b1) (dh_supply (mb_dhw x)) inlet (ms_flow (mb_sys x)) (ms_return (mb_sys x)) <= c * dh_defrost (mb_dhw x) * h).
Proof.
  intros AN EI H0 D0 K0 OC [EH C V|y NH H9 R C V].
  - split; [exact (OC _ C)|]. intro N. contradiction.
  - unfold redesign in R. destruct (mp_from_size _ _ _ _ _ _ _ _ _ _ _ _ _ _) as [b2 o] eqn:E in R. cbn [snd] in R. subst o.
    destruct (C49_boost _ _ _ _ _ _ _ _ _ _ _ _ _ _ _ _ E) as (s & cap & vol & cap' & SZ & EC & EV & EC' & LE & _).
    rewrite C in EC'. injection EC' as <-.
    destruct (mp_size_inv _ _ _ _ _ _ _ _ _ SZ) as (b3 & d' & l & hot & cap0 & rv & inlet' & f & stor & I1 & I2 & I3 & I4 & I5 & I6 & I7 & I8 & I9 & I10 & I11 & I12).
    rewrite AN in I3. apply ok_inj in I3. subst b3. rewrite EI in I8. apply ok_inj in I8. subst inlet'.
    subst s. cbn [dh_set_results dh_min_cap] in EC. injection EC as <-.
    pose proof (rtp_capacity_inv _ _ _ _ _ _ EI I6) as RC. cbn [dh_defrost dh_run dh_supply] in RC.
    assert (DH : 0 < dh_defrost (mb_dhw x) * h) by (apply qmul_pos; assumption).
    assert (CE : cap0 * (dh_defrost (mb_dhw x) * h) == day_kbtu (bd_daily b1) (dh_supply (mb_dhw x)) inlet (ms_flow (mb_sys x)) (ms_return (mb_sys x))).
    { unfold day_kbtu. rewrite <- RC. field. }
    assert (LE' : cap0 * (dh_defrost (mb_dhw x) * h) <= c * (dh_defrost (mb_dhw x) * h)) by (apply Qmult_le_compat_r; lra).
    assert (C0 : 0 < cap0).
    { destruct (Qlt_le_dec 0 cap0) as [P|P]; [exact P|]. exfalso. assert (cap0 * (dh_defrost (mb_dhw x) * h) <= 0 * (dh_defrost (mb_dhw x) * h)) by (apply Qmult_le_compat_r; lra). lra. }
    split; [lra|]. intros _. setoid_replace (c * dh_defrost (mb_dhw x) * h) with (c * (dh_defrost (mb_dhw x) * h)) by ring. lra.
Qed.

Lemma nth_pairs {A} (l : list A) i : (i < length l)%nat -> exists a, nth_error l i = Some a.
Proof. intro L. destruct (nth_error l i) as [a|] eqn:E; [exists a; reflexivity|]. apply nth_error_None in E. lia. Qed.

(** Along the curve the hours shown fall and the capacity grows; it starts with the system itself, which is the point marked;
    a point for fewer hours than the system's shows no more hours than it was designed for, up to the rounding. *)
Theorem C84_order : forall lib x b slope step b' cv inlet, 0 < step -> mp_sizing_curve lib x b slope step = (b', Ok cv) ->
  bd_is_annual b = false -> (forall p, In p (bd_peak b) -> 0 <= p) -> design_inlet b = Ok inlet ->
  0 < dh_defrost (mb_dhw x) -> 0 < dh_run (mb_dhw x) -> (forall c, dh_min_cap (mb_dhw x) = Some c -> 0 < c) ->
  0 < day_kbtu (bd_daily b) (dh_supply (mb_dhw x)) inlet (ms_flow (mb_sys x)) (ms_return (mb_sys x)) ->
  strictly_decreasing (cv_hours cv) /\ strictly_increasing (cv_capacity cv) /\ cv_rec cv = 0%Z /\
  (cv_hours cv <> [] -> exists c v, dh_min_cap (mb_dhw x) = Some c /\ dh_min_stor (mb_dhw x) = Some v /\
     nth_error (cv_capacity cv) 0 = Some c /\ nth_error (cv_storage cv) 0 = Some v) /\
  (forall i g c, (0 < i)%nat -> nth_error (cv_hours cv) i = Some g -> nth_error (cv_capacity cv) i = Some c ->
     exists h v, 9 <= h < dh_run (mb_dhw x) /\ design_at lib b x slope h c v /\ nth_error (cv_storage cv) i = Some v /\ g <= h + (1 # 20)).
Proof.
  intros lib x b slope step b' cv inlet Hst H AN SH EI D0 R0 OC K0.
  destruct (mp_curve_mark _ _ _ _ _ _ _ Hst H) as (L1 & L2 & SD & RE & FST & _).
  destruct (C84_points _ _ _ _ _ _ _ Hst H) as (b1 & inlet' & EB & EI' & PT). rewrite AN in EB. apply ok_inj in EB. subst b1.
  rewrite EI in EI'. apply ok_inj in EI'. subst inlet'.
  set (K := day_kbtu _ _ _ _ _) in *.
  assert (HP : forall k, peaky b (swept x step k) -> 0 < swept x step k).
  { intros k (p & IP & E). destruct (Qlt_le_dec 0 (swept x step k)) as [P|P]; [exact P|]. exfalso.
    assert (swept x step k * p <= 0 * p) by (apply Qmult_le_compat_r; [exact P|exact (SH p IP)]). lra. }
  assert (PC : forall i g c, nth_error (cv_hours cv) i = Some g -> nth_error (cv_capacity cv) i = Some c ->
    0 < c /\ nearest_tenth (K / (c * dh_defrost (mb_dhw x))) g).
  { intros i g c N1 N2. assert (IL : (i < length (cv_storage cv))%nat) by (rewrite L2; apply nth_error_Some; congruence).
    destruct (nth_pairs _ _ IL) as (v & N3). destruct (PT i g c v N1 N2 N3) as (k & DA & NV & PK & NT). specialize (PK SH).
    destruct (design_capacity lib x b slope (swept x step k) c v inlet AN EI (HP _ PK) D0 K0 OC DA) as [C0 _]. auto. }
  assert (CI : forall i g1 g2 c1 c2, nth_error (cv_hours cv) i = Some g1 -> nth_error (cv_hours cv) (S i) = Some g2 ->
    nth_error (cv_capacity cv) i = Some c1 -> nth_error (cv_capacity cv) (S i) = Some c2 -> g2 < g1 -> c1 < c2).
  { intros i g1 g2 c1 c2 N1 N2 M1 M2 LT. destruct (PC _ _ _ N1 M1) as [C1 T1]. destruct (PC _ _ _ N2 M2) as [C2 T2].
    destruct (Qlt_le_dec c1 c2) as [|LE]; [assumption|]. exfalso.
    assert (CD1 : 0 < c1 * dh_defrost (mb_dhw x)) by (apply qmul_pos; assumption).
    assert (CD2 : 0 < c2 * dh_defrost (mb_dhw x)) by (apply qmul_pos; assumption).
    assert (DL : c2 * dh_defrost (mb_dhw x) <= c1 * dh_defrost (mb_dhw x)) by (apply Qmult_le_compat_r; lra).
    assert (QL : K / (c1 * dh_defrost (mb_dhw x)) <= K / (c2 * dh_defrost (mb_dhw x))).
    { apply qdiv_le_iff; [exact CD1|]. setoid_replace (K / (c2 * dh_defrost (mb_dhw x)) * (c1 * dh_defrost (mb_dhw x))) with (K * (c1 * dh_defrost (mb_dhw x)) / (c2 * dh_defrost (mb_dhw x))) by (field; split; lra).
      apply qle_div_iff; [exact CD2|]. rewrite !(Qmult_comm K). apply Qmult_le_compat_r; lra. }
    pose proof (nearest_mono _ _ _ _ QL T1 T2). lra. }
  split; [exact SD|]. split; [|split; [exact RE|split]].
  - clear - CI SD L1. revert CI SD L1. generalize (cv_hours cv) (cv_capacity cv). intros l. induction l as [|g1 l IH]; intros [|c1 m] CI SD L1; try discriminate L1; [exact I|].
    destruct l as [|g2 l]; destruct m as [|c2 m]; try discriminate L1; [exact I|]. destruct SD as [LT SD]. split.
    + exact (CI 0%nat g1 g2 c1 c2 eq_refl eq_refl eq_refl eq_refl LT).
    + apply IH; [|exact SD|cbn in L1 |- *; lia]. intros i a1 a2 d1 d2 N1 N2 M1 M2. exact (CI (S i) a1 a2 d1 d2 N1 N2 M1 M2).
  - intro NE. destruct FST as [E|(c & v & cs & vs & E1 & E2 & _ & E3 & E4)]; [contradiction|]. exists c, v. rewrite E3, E4. auto.
  - intros i g c I0 N1 N2. assert (IL : (i < length (cv_storage cv))%nat) by (rewrite L2; apply nth_error_Some; congruence).
    destruct (nth_pairs _ _ IL) as (v & N3). destruct (PT i g c v N1 N2 N3) as (k & DA & NV & PK & NT). specialize (PK SH).
    destruct (design_capacity lib x b slope (swept x step k) c v inlet AN EI (HP _ PK) D0 K0 OC DA) as [C0 CC].
    assert (NOWN : ~ swept x step k == dh_run (mb_dhw x)).
    { intro EQ. destruct DA as [_ EC _|y NH _ _ _ _]; [|contradiction].
      destruct FST as [E|(c0 & v0 & cs & vs & E1 & E2 & _ & E3 & E4)]; [rewrite E in N1; destruct i; discriminate|].
      rewrite EC in E1. injection E1 as <-. assert (H0L : exists g0, nth_error (cv_hours cv) 0 = Some g0) by (apply nth_pairs; assert (i < length (cv_hours cv))%nat by (apply nth_error_Some; congruence); lia).
      destruct H0L as (g0 & N0). destruct (PC 0%nat g0 c N0 ltac:(rewrite E3; reflexivity)) as [_ T0].
      assert (GE : g == g0). { apply Qle_antisym; eapply nearest_mono; try exact NT; try exact T0; apply Qle_refl. }
      assert (LT : forall l j a d, strictly_decreasing l -> nth_error l 0 = Some a -> nth_error l (S j) = Some d -> d < a).
      { clear. induction l as [|a0 l IH]; intros j a d SD A D; [discriminate A|]. injection A as ->. destruct l as [|a1 l]; [destruct j; discriminate D|].
        destruct SD as [Q SD]. destruct j as [|j]; [cbn in D; injection D as ->; exact Q|]. specialize (IH j a1 d SD eq_refl D). lra. }
      destruct i as [|i]; [lia|]. pose proof (LT _ _ _ _ SD N0 N1). lra. }
    exists (swept x step k), v. specialize (CC NOWN). fold K in CC. split; [|split; [exact DA|split; [exact N3|]]].
    + split; [destruct DA as [E _ _|y _ L9 _ _ _]; [contradiction|exact L9]|]. unfold swept in *. destruct k as [|k]; [exfalso; apply NOWN; change (qz (Z.of_nat 0)) with 0; ring|].
      assert (KP : 0 < qz (Z.of_nat (S k))) by (unfold qz; change 0 with (inject_Z 0); rewrite <- Zlt_Qlt; lia).
      pose proof (qmul_pos _ _ KP Hst). lra.
    + assert (CD : 0 < c * dh_defrost (mb_dhw x)) by (apply qmul_pos; assumption).
      assert (QL : K / (c * dh_defrost (mb_dhw x)) <= swept x step k).
      { apply qdiv_le_iff; [exact CD|]. rewrite Qmult_comm. exact CC. }
      destruct NT as (z & G & A & _). apply Qabs_Qle_condition in A. rewrite G. apply qdiv_le_iff; [reflexivity|]. lra.
Qed.
Print Assumptions C84_order.

(** Nothing is left out without cause: as long as every design of the sweep exists and has storage, each is on the curve or
    shows no fewer hours than a point that is; and one that shows fewer hours than all before it is on the curve. *)
Theorem C84_complete : forall lib x b slope step b' cv inlet n c v, 0 < step -> mp_sizing_curve lib x b slope step = (b', Ok cv) ->
  bd_is_annual b = false -> (forall p, In p (bd_peak b) -> 0 <= p) -> design_inlet b = Ok inlet -> 0 < swept x step n -> peaky b (swept x step n) ->
  (forall k, (k <= n)%nat -> exists c' v', design_at lib b x slope (swept x step k) c' v' /\ ~ v' == 0) ->
  design_at lib b x slope (swept x step n) c v -> ~ v == 0 ->
  let shows c g := nearest_tenth (day_kbtu (bd_daily b) (dh_supply (mb_dhw x)) inlet (ms_flow (mb_sys x)) (ms_return (mb_sys x)) / (c * dh_defrost (mb_dhw x))) g in
  exists g, shows c g /\
    (exists i g', nth_error (cv_hours cv) i = Some g' /\ g' <= g) /\
    ((forall k c' v' g', (k < n)%nat -> design_at lib b x slope (swept x step k) c' v' -> shows c' g' -> g < g') ->
     exists i, nth_error (cv_hours cv) i = Some g /\ nth_error (cv_capacity cv) i = Some c /\ nth_error (cv_storage cv) i = Some v).
Proof.
  intros lib x b slope step b' cv inlet n c v Hst H AN SH EI HN PK ALL DA NV shows.
  destruct (mp_curve_inv _ _ _ _ _ _ _ Hst H) as (b1 & inlet' & lo & hs & rec & pts & EB & EI' & LO & HS & L & FA & H1 & H2 & H3).
  rewrite AN in EB. apply ok_inj in EB. subst b1. rewrite EI in EI'. apply ok_inj in EI'. subst inlet'.
  set (pt := mp_curve_point _ _ _ _ _ _ _) in L. set (num := _ + _ * 24) in L.
  assert (SHW : forall c, shows c (py_round1 (num / (c * dh_defrost (mb_dhw x))))).
  { intro c0. unfold shows. eapply nearest_tenth_eq; [|apply py_round1_nearest]. unfold num. rewrite <- day_kbtu_eq. reflexivity. }
  assert (PTI : forall h c v, pt h = Ok (Some (v, c)) <-> design_at lib b x slope h c v /\ ~ v == 0) by (intros; apply point_iff).
  destruct PK as (p & IP & PE). destruct (min_run_below b p (swept x step n) SH IP HN PE) as (lo' & LO' & LT). rewrite LO in LO'. apply ok_inj in LO'. subst lo'.
  assert (SP : exists post, hs = map (swept x step) (seq 0 n) ++ swept x step n :: post).
  { unfold arange in HS. destruct (Qeq_bool (- step) 0); [discriminate|]. apply ok_inj in HS. subst hs.
    set (N := Z.to_nat _). assert (NL : (n < N)%nat).
    { unfold N. set (q := (lo - dh_run (mb_dhw x)) / - step).
      assert (qz (Z.of_nat n) < q).
      { unfold q. setoid_replace ((lo - dh_run (mb_dhw x)) / - step) with ((dh_run (mb_dhw x) - lo) / step) by (field; lra).
        apply qlt_div_iff; [exact Hst|]. unfold swept in LT. lra. }
      pose proof (Qle_ceiling q) as CQ. assert (qz (Z.of_nat n) < qz (Qceiling q)) by (unfold qz in *; eapply Qlt_le_trans; eassumption).
      unfold qz in H4. rewrite <- Zlt_Qlt in H4. lia. }
    replace N with (n + S (N - n - 1))%nat by lia. rewrite seq_app, map_app. cbn [plus]. cbn [seq map]. eexists. reflexivity. }
  destruct SP as (post & SP). rewrite SP in L.
  assert (PD : pt (swept x step n) = Ok (Some (v, c))) by (apply PTI; split; assumption).
  destruct (mloop_complete pt num (dh_defrost (mb_dhw x)) (map (swept x step) (seq 0 n)) (swept x step n) post None [] rec pts L) with (c := c) (v := v) as (g & c' & v' & I & LE & X).
  - intros h' I'. assert (EK : exists k, (k <= n)%nat /\ h' = swept x step k).
    { apply in_app_or in I'. destruct I' as [I'|[<-|[]]]; [|exists n; split; [lia|reflexivity]]. apply in_map_iff in I'. destruct I' as (k & <- & S0). apply in_seq in S0. exists k. split; [lia|reflexivity]. }
    destruct EK as (k & KL & ->). destruct (ALL k KL) as (c' & v' & A). exists c', v'. apply PTI. exact A.
  - exact PD.
  - exists (py_round1 (num / (c * dh_defrost (mb_dhw x)))). split; [apply SHW|]. split.
    + apply In_nth_error in I. destruct I as (i & I). exists i, g. split; [rewrite H1, nth_error_map, I; reflexivity|exact LE].
    + intro FEW. assert (IN : In (py_round1 (num / (c * dh_defrost (mb_dhw x))), c, v) pts).
      { apply X; [intros ? ? ? []|]. intros h' c2 v2 I' P2. apply in_map_iff in I'. destruct I' as (k & <- & S0). apply in_seq in S0.
        apply PTI in P2. destruct P2 as [D2 _]. apply (FEW k c2 v2); [lia|exact D2|apply SHW]. }
      apply In_nth_error in IN. destruct IN as (i & IN). exists i. rewrite H1, H2, H3, !nth_error_map, IN. auto.
Qed.
Print Assumptions C84_complete.

(** A system sized for nine hours: its curve is the one point that is the system itself. *)
Definition mc_built : mp_built :=
  mkBuilt (mkDhw 120 150 9 1 (Some 100) (Some 200) (Some 2))
    (mkMsys [wh_new (Some (PmNominal 100)) None ex_map] (sl_new 200 50 150 120 1 2) 120 150 110 3).
Example C84_case : exists g, mp_sizing_curve ex_lib mc_built ex_building 2 (1 # 2) = (ex_building, Ok (mkCurve [g] [100] [200] 0)) /\
  bd_is_annual ex_building = false /\ forallb (Qle_bool 0) (bd_peak ex_building) = true /\
  (exists inlet, design_inlet ex_building = Ok inlet /\ 0 < day_kbtu (bd_daily ex_building) 120 inlet 3 110) /\
  design_at ex_lib ex_building mc_built 2 (swept mc_built (1 # 2) 0) 100 200 /\ peaky ex_building (swept mc_built (1 # 2) 0).
Proof.
  eexists. split; [vm_compute; reflexivity|]. split; [reflexivity|]. split; [vm_compute; reflexivity|].
  split; [eexists; split; [vm_compute; reflexivity|reflexivity]|].
  split; [apply own_design; reflexivity|]. eexists. split; [|instantiate (1 := nth 8 (bd_peak ex_building) 0); reflexivity].
  apply nth_In. vm_compute. repeat constructor.
Qed.
