(** C75: what a system object reports after any sequence of sizing calls. *)
From Verif Require Import Prelude M_StratifiedTank M_Building M_Heater M_Sizing M_Step M_Swing M_Session
  S_StratifiedTank S_Session L_Building L_Sizing3 L_Sizing4 L_Session P_Building P_Sizing.
Open Scope Q_scope.

(** ** The figures are those of the last sizing *)

(** Whatever was called on the system, raised or not, its capacity and storage volume are those a new
    system with the same settings reports after just the last call that made one report any. *)
Theorem C75_reports_last : forall K supply storage run defrost cs,
  shared_sizing K ->
  let new := dhw_new supply storage run defrost in
  get_capacity (session K new cs) = last_answer (fun c => get_capacity (after K new c)) cs /\
  get_storage (session K new cs) = last_answer (fun c => get_storage (after K new c)) cs.
Proof.
  intros K supply storage run defrost cs HK new.
  assert (H : same_setup new new) by (repeat split).
  assert (L : forall get : dhw -> res Q, (forall c, get (after K new c) = Err RuntimeError \/ exists x, get (after K new c) = Ok x) ->
    forall r, r = match last_answer (fun c => get (after K new c)) cs with Ok x => Ok x | Err _ => Err RuntimeError end ->
    r = last_answer (fun c => get (after K new c)) cs).
  { intros get G r ->. destruct (last_answer_error (fun c => get (after K new c)) cs G) as [X|[x X]]; rewrite X; reflexivity. }
  split; apply L.
  - intro c. unfold get_capacity, or_unsized. destruct (dh_min_cap (after K new c)); [right; eexists; reflexivity|left; reflexivity].
  - exact (session_last (fun r => or_unsized (fst (fst r))) K new cs HK eq_refl eq_refl (fun a b c => ex_intro _ a eq_refl) new H).
  - intro c. unfold get_storage, or_unsized. destruct (dh_min_stor (after K new c)); [right; eexists; reflexivity|left; reflexivity].
  - exact (session_last (fun r => or_unsized (snd (fst r))) K new cs HK eq_refl eq_refl (fun a b c => ex_intro _ b eq_refl) new H).
Qed.
Print Assumptions C75_reports_last.

(** Before the first sizing, and after any number of curves, there is nothing to report. *)
Theorem C75_never_sized : forall K vol hs supply storage run defrost slope cs,
  Forall asks_curve cs ->
  let s := session K (fst (from_components vol hs supply storage run defrost slope)) cs in
  get_capacity s = Err RuntimeError /\ get_storage s = Err RuntimeError.
Proof.
  intros K vol hs supply storage run defrost slope cs F. cbv zeta. cbn [from_components fst].
  assert (E : session K (dhw_new supply storage run defrost) cs = dhw_new supply storage run defrost).
  { induction F as [|c cs Hc F IH]; [reflexivity|]. cbn [session fold_left].
    pose proof (after_curve K (dhw_new supply storage run defrost) c) as A. destruct c; [destruct Hc| |]; rewrite A; exact IH. }
  rewrite E. split; reflexivity.
Qed.
Print Assumptions C75_never_sized.

(** A sizing that returns always leaves figures to report. *)
Theorem C75_sizing_answers : forall K lib s b sched m slope fract s' b' w,
  dhw_size K lib s b sched m slope fract = (s', b', Ok w) ->
  exists cap stor, get_capacity s' = Ok cap /\ get_storage s' = Ok stor.
Proof.
  intros K lib s b sched m slope fract s' b' w H.
  destruct (size_ok_inv _ _ _ _ _ _ _ _ _ _ _ H) as (b1 & cap & stor & _ & _ & ->).
  exists cap, stor. split; reflexivity.
Qed.
Print Assumptions C75_sizing_answers.

(** A sizing that raises leaves the figures alone, unless it found a capacity of exactly zero (or the
    annual shape could not be put back). *)
Theorem C75_raised : forall K lib s b sched m slope fract s' b' e,
  bd_is_annual b = false ->
  dhw_size K lib s b sched m slope fract = (s', b', Err e) ->
  (get_capacity s' = get_capacity s /\ get_storage s' = get_storage s) \/
  (e = ZeroDivisionError /\ exists c, get_capacity s' = Ok c /\ c == 0).
Proof.
  intros K lib s b sched m slope fract s' b' e A H. unfold dhw_size in H. rewrite A in H. unfold size_try in H.
  destruct (size_values K (cap_run s sched m) b sched m slope fract) as [[cap stor]|x].
  - set (w := match map_of m with [] => Ok [] | d => short_cycling (cap_run s sched m) d cap stor end) in H.
    destruct w as [ws|x] eqn:E; subst w; [discriminate H|]. inversion H; subst. right.
    assert (Z : forall l, short_cycling (cap_run s sched m) l cap stor = Err e -> e = ZeroDivisionError /\ cap == 0).
    { intros l X. unfold short_cycling in X. destruct (Qle_bool (dh_storage (cap_run s sched m) - dh_supply (cap_run s sched m)) 0) eqn:DT; [discriminate|].
      cbv zeta in X. apply qleb_false in DT.
      set (dt := dh_storage (cap_run s sched m) - dh_supply (cap_run s sched m)) in *. clearbody dt.
      destruct (mapM _ l) as [ws|y] eqn:M in X; [discriminate|]. cbn [bind] in X. assert (y = e) by congruence. subst y. clear X.
      revert M. induction l as [|kc l IH]; cbn [mapM]; [discriminate|].
      destruct (qltb (ct_on_sensor (snd kc)) (ct_off_sensor (snd kc))).
      - cbn [bind]. destruct (mapM _ l) as [ws|y]; [discriminate|]. exact IH.
      - destruct (qdiv _ _) as [hr|y] eqn:Q in |- *.
        + cbn [bind]. destruct (mapM _ l) as [ws|y]; [discriminate|]. exact IH.
        + cbn [bind]. intro X. assert (y = e) by congruence. subst y. unfold qdiv in Q.
          destruct (Qeq_bool (cap * 1000 / (rho_cp * dt)) 0) eqn:Q0; [|discriminate]. split; [congruence|].
          apply Qeq_bool_iff in Q0. assert (RP : 0 < rho_cp) by reflexivity.
          assert (P : 0 < rho_cp * dt) by (apply Qmult_lt_0_compat; assumption).
          assert (C : cap * 1000 == cap * 1000 / (rho_cp * dt) * (rho_cp * dt)) by (field; lra).
          rewrite Q0 in C. lra. }
    destruct (map_of m) as [|kc l]; [discriminate E|]. destruct (Z _ E) as [-> C]. split; [reflexivity|]. exists cap. split; [reflexivity|exact C].
  - inversion H; subst. left. unfold get_capacity, get_storage, cap_run. destruct sched; [|split; reflexivity].
    destruct (ls_active _ m); split; reflexivity.
Qed.
Print Assumptions C75_raised.

(** ... and that happens: sizing for a building that uses no hot water raises, and the figures of the
    earlier sizing are gone. *)
Definition idle_building : building := mkBuilding (Some (cz_from_design (Some 30) (Some 50))) 0 ex_shape ex_shape "custom".
Theorem C75_raised_refuted : exists s1 w s2 c1 c2,
  dhw_size base_klass ex_lib ex_dhw ex_building None ex_map 2 1 = (s1, ex_building, Ok w) /\
  dhw_size base_klass ex_lib s1 idle_building None ex_map 2 1 = (s2, idle_building, Err ZeroDivisionError) /\
  get_capacity s1 = Ok c1 /\ 0 < c1 /\ get_capacity s2 = Ok c2 /\ c2 == 0.
Proof. do 5 eexists. repeat split; vm_compute; reflexivity. Qed.
Print Assumptions C75_raised_refuted.

(** Two sizings and a curve: the second sizing's figures, which are not the first's. *)
Definition twice_building : building := mkBuilding (Some (cz_from_design (Some 30) (Some 50))) 2000 ex_shape ex_shape "custom".
Example C75_case : exists c1 c2,
  let calls := [CallSize ex_lib ex_building None ex_map 2 1; CallSize ex_lib twice_building None ex_map 3 1;
                CallCurve ex_lib ex_building ex_map 2 4] in
  get_capacity (session base_klass ex_dhw calls) = Ok c2 /\
  get_capacity (after base_klass ex_dhw (CallSize ex_lib ex_building None ex_map 2 1)) = Ok c1 /\ ~ c1 == c2.
Proof.
  do 2 eexists. cbv zeta. split; [|split; [vm_compute; reflexivity|]].
  - rewrite (proj1 (C75_reports_last base_klass 120 150 16 1 _ shared_base)). cbn [last_answer].
    rewrite (after_curve base_klass (dhw_new 120 150 16 1) (CallCurve ex_lib ex_building ex_map 2 4)). cbn [get_capacity or_unsized dhw_new dh_min_cap].
    vm_compute. reflexivity.
  - vm_compute. discriminate.
Qed.

(** ** Curves *)

Lemma last_answer_ext {A B} (f g : A -> res B) l : (forall c, f c = g c) -> last_answer f l = last_answer g l.
Proof. intro H. induction l as [|c l IH]; [reflexivity|]. cbn [last_answer]. rewrite IH, H. reflexivity. Qed.

Lemma session_slope K supply storage run defrost cs given : shared_sizing K ->
  let new := dhw_new supply storage run defrost in
  slope_or (session K new cs) given = slope_in_force K new cs given.
Proof.
  intros HK new. assert (H : same_setup new new) by (repeat split).
  pose proof (session_last (fun r => or_unsized (snd r)) K new cs HK eq_refl eq_refl (fun a b c => ex_intro _ c eq_refl) new H) as E.
  cbn [results snd] in E. unfold slope_in_force.
  rewrite (last_answer_ext (fun c => do _ <- get_capacity (after K new c); sizing_slope c) (fun c => or_unsized (dh_slope (after K new c)))).
  - unfold slope_or. destruct (dh_slope (session K new cs)) as [x|]; destruct (last_answer _ cs) as [y|e]; cbn [or_unsized] in E; try discriminate E.
    + congruence.
    + reflexivity.
  - intro c. pose proof (after_curve K new c) as A. destruct c as [lib b sched m slope fract|lib b m slope step|lib icdf b sched m slope q].
    + destruct (size_either K new new lib b sched m slope fract HK H) as [[X _]|(cap & stor & X & _)].
      * cbn [after]. unfold get_capacity. injection X as X1 X2 X3. rewrite X1, X3. reflexivity.
      * cbn [after]. unfold get_capacity. injection X as X1 X2 X3. rewrite X1, X3. reflexivity.
    + rewrite A. reflexivity.
    + rewrite A. reflexivity.
Qed.
Lemma curve_point_setup K s s' b f : shared_sizing K -> same_setup s s' -> curve_point K s b f = curve_point K s' b f.
Proof.
  intros HK H. rewrite (setup_eq _ _ H). destruct s as [a1 a2 a3 a4 a5 a6 a7]. cbn [dh_supply dh_storage dh_run dh_defrost].
  destruct HK; reflexivity.
Qed.
Lemma curve_loop_setup K b f : shared_sizing K -> forall hs s s', same_setup s s' ->
  snd (curve_loop K s b f hs) = snd (curve_loop K s' b f hs).
Proof.
  intro HK. induction hs as [|h hs IH]; intros s s' H; [reflexivity|]. cbn [curve_loop].
  assert (H1 : same_setup (dh_set_run s h) (dh_set_run s' h)).
  { destruct H as (A & B & C & D). unfold same_setup. cbn. auto. }
  rewrite (curve_point_setup K _ _ b f HK H1). destruct (curve_point K (dh_set_run s' h) b f) as [[[cap st]|]|e]; [|reflexivity|reflexivity].
  specialize (IH _ _ H1). destruct (curve_loop K (dh_set_run s h) b f hs) as [s2 r]. destruct (curve_loop K (dh_set_run s' h) b f hs) as [s2' r'].
  cbn [snd] in *. rewrite IH. reflexivity.
Qed.
Lemma ls_body_setup K icdf s s' b sched d slope p : shared_sizing K -> same_setup s s' ->
  ls_curve_body K icdf s b sched d slope p = ls_curve_body K icdf s' b sched d slope p.
Proof.
  intros HK H. rewrite (setup_eq _ _ H). destruct s as [a1 a2 a3 a4 a5 a6 a7]. cbn [dh_supply dh_storage dh_run dh_defrost].
  destruct HK; reflexivity.
Qed.

(** A sizing curve, normal or load-shift, is drawn with the stratification slope of the last sizing
    (the one given only if there was none); nothing else of the history matters. *)
Theorem C75_curves : forall K supply storage run defrost cs,
  shared_sizing K ->
  let new := dhw_new supply storage run defrost in
  (forall lib b m slope step,
     snd (sizing_curve K lib (session K new cs) b m slope step) =
     snd (sizing_curve K lib new b m (slope_in_force K new cs slope) step)) /\
  (forall lib icdf b sched m slope p,
     snd (ls_sizing_curve K lib icdf (session K new cs) b sched m slope p) =
     snd (ls_sizing_curve K lib icdf new b sched m (slope_in_force K new cs slope) p)).
Proof.
  intros K supply storage run defrost cs HK new. pose proof (session_setup K cs new) as H.
  split; [intros lib b m slope step|intros lib icdf b sched m slope p].
  - unfold sizing_curve. destruct (if bd_is_annual b then bd_set_daily lib b else Ok b) as [b1|e]; [|reflexivity].
    assert (E : snd (curve_body K (session K new cs) b1 m slope step) = snd (curve_body K new b1 m (slope_in_force K new cs slope) step)).
    { unfold curve_body. pose proof (session_slope K supply storage run defrost cs slope HK) as SL. cbv zeta in SL. fold new in SL. rewrite SL. clear SL.
      change (slope_or new (slope_in_force K new cs slope)) with (slope_in_force K new cs slope).
      set (sl := slope_in_force K new cs slope). clearbody sl. set (s := session K new cs) in *. clearbody s.
      destruct H as (A & B & C & D). rewrite <- C. destruct (design_inlet b1) as [inlet|e]; [|reflexivity]. cbn [bind].
      assert (F : strat_factor s m sl inlet = strat_factor new m sl inlet).
      { destruct s as [a1 a2 a3 a4 a5 a6 a7]. cbn [dh_supply dh_storage dh_run dh_defrost] in A, B, C, D. subst. reflexivity. }
      rewrite F. destruct (strat_factor new m sl inlet) as [f|e]; [|reflexivity]. cbn [bind].
      destruct (min_run_hr b1) as [lo|e]; [|reflexivity]. cbn [bind].
      destruct (arange 24 (dh_run new) (- step)) as [a1|e]; [|reflexivity]. cbn [bind].
      destruct (arange (dh_run new) lo (- step)) as [a2|e]; [|reflexivity]. cbn [bind].
      pose proof (curve_loop_setup K b1 f HK (a1 ++ a2) new s (conj A (conj B (conj C D)))) as L.
      destruct (curve_loop K s b1 f (a1 ++ a2)) as [s2 o]. destruct (curve_loop K new b1 f (a1 ++ a2)) as [s2' o'].
      cbn [snd] in *. rewrite L. reflexivity. }
    destruct (curve_body K (session K new cs) b1 m slope step) as [s2 o].
    destruct (curve_body K new b1 m (slope_in_force K new cs slope) step) as [s2' o']. cbn [snd] in E. subst o'.
    destruct (restore_annual lib (bd_is_annual b) b1 o). reflexivity.
  - unfold ls_sizing_curve. destruct m as [d|]; [|reflexivity]. destruct (negb (dict_has d "shed")); [reflexivity|].
    destruct (if bd_is_annual b then bd_set_daily lib b else Ok b) as [b1|e]; [|reflexivity].
    pose proof (session_slope K supply storage run defrost cs slope HK) as SL. cbv zeta in SL. fold new in SL. rewrite SL. clear SL.
    change (slope_or new (slope_in_force K new cs slope)) with (slope_in_force K new cs slope).
    set (sl := slope_in_force K new cs slope). clearbody sl. set (s := session K new cs) in *. clearbody s.
    destruct H as (A & B & C & D).
    rewrite (ls_body_setup K icdf (dh_set_run s (qmin (dh_run s) (non_shed_hours sched))) (dh_set_run new (qmin (dh_run new) (non_shed_hours sched))) b1 sched d sl p HK).
    + destruct (restore_annual _ _ _ _). reflexivity.
    + unfold same_setup. cbn [dh_set_run dh_supply dh_storage dh_run dh_defrost]. rewrite <- C. auto.
Qed.
Print Assumptions C75_curves.

(** The slope given to the curve is ignored once a sizing has succeeded. *)
Example C75_curve_case : slope_in_force base_klass ex_dhw [CallSize ex_lib ex_building None ex_map 2 1] 5 = 2 /\
  slope_in_force base_klass ex_dhw [] 5 = 5.
Proof. split; vm_compute; reflexivity. Qed.

(** ** Outage check *)

(** The check tells whether usable hot water is left at all; the demand it is given plays no role. *)
Theorem C75_outage : forall s tk u,
  bs_tank s = Some tk -> st_usable tk (bs_supply s) = Ok u ->
  forall demand, (check_for_outage s demand = Ok true <-> u <= 0) /\ (check_for_outage s demand = Ok false <-> 0 < u).
Proof.
  intros s tk u T U demand. unfold check_for_outage. rewrite T, U. cbn [bind].
  destruct (Qle_bool u 0) eqn:E.
  - apply Qle_bool_iff in E. split; split; intro X; [exact E|reflexivity|discriminate X|exfalso; lra].
  - apply qleb_false in E. split; split; intro X; [discriminate X|exfalso; lra|exact E|reflexivity].
Qed.
Print Assumptions C75_outage.

(** A demand the tank cannot meet is not reported as an outage. *)
Theorem C75_outage_refuted : exists s tk u,
  bs_tank s = Some tk /\ st_usable tk (bs_supply s) = Ok u /\ 0 < u /\ u < 1000 /\ check_for_outage s 1000 = Ok false.
Proof.
  set (tk := st_initialize (st_new 100 2) 150 50 1).
  exists (mkBsys [] (Some tk) 120 150), tk. eexists. repeat split; vm_compute; reflexivity.
Qed.
Print Assumptions C75_outage_refuted.

(** ** Swing-tank systems *)

(** Each of the five figures is that of the last call that made a new system report it. *)
Theorem C75_swing_reports_last : forall supply storage ret flow safety run defrost new cs,
  sw_new supply storage ret flow safety run defrost = Ok new ->
  get_capacity (sw_dhw (swing_session new cs)) = last_answer (fun c => get_capacity (sw_dhw (swing_after new c))) cs /\
  get_storage (sw_dhw (swing_session new cs)) = last_answer (fun c => get_storage (sw_dhw (swing_after new c))) cs /\
  get_tm_volume (swing_session new cs) = last_answer (fun c => get_tm_volume (swing_after new c)) cs /\
  get_tm_ca_volume (swing_session new cs) = last_answer (fun c => get_tm_ca_volume (swing_after new c)) cs /\
  get_tm_capacity (swing_session new cs) = last_answer (fun c => get_tm_capacity (swing_after new c)) cs.
Proof.
  intros supply storage ret flow safety run defrost new cs N.
  assert (P : results (sw_dhw new) = (None, None, None) /\ tm_results new = (None, None, None)).
  { unfold sw_new in N. destruct (Qle_bool safety 1); [discriminate|]. apply ok_inj in N. subst new. split; reflexivity. }
  destruct P as [P1 P2]. assert (H : same_swing new new) by (repeat split).
  assert (L : forall get : swing -> res Q, (forall c, get (swing_after new c) = Err RuntimeError \/ exists x, get (swing_after new c) = Ok x) ->
    forall r, r = match last_answer (fun c => get (swing_after new c)) cs with Ok x => Ok x | Err _ => get new end ->
    get new = Err RuntimeError -> r = last_answer (fun c => get (swing_after new c)) cs).
  { intros get G r -> ->. destruct (last_answer_error (fun c => get (swing_after new c)) cs G) as [X|[x X]]; rewrite X; reflexivity. }
  assert (U : forall x, or_unsized x = Err RuntimeError \/ exists y, or_unsized x = Ok y).
  { intros [y|]; [right; exists y; reflexivity|left; reflexivity]. }
  assert (A : dh_min_cap (sw_dhw new) = None /\ dh_min_stor (sw_dhw new) = None) by (unfold results in P1; split; congruence).
  assert (B : sw_tm_vol new = None /\ sw_tm_ca new = None /\ sw_tm_cap new = None) by (unfold tm_results in P2; repeat split; congruence).
  destruct A as [A1 A2]. destruct B as (B1 & B2 & B3).
  repeat split.
  - apply (L (fun s => get_capacity (sw_dhw s))); [intro c; apply U| |unfold get_capacity; rewrite A1; reflexivity].
    exact (swing_session_last (fun s => results (sw_dhw s)) (fun r => or_unsized (fst (fst r))) new cs (or_introl eq_refl) P1 eq_refl (fun a b c => ex_intro _ a eq_refl) new H).
  - apply (L (fun s => get_storage (sw_dhw s))); [intro c; apply U| |unfold get_storage; rewrite A2; reflexivity].
    exact (swing_session_last (fun s => results (sw_dhw s)) (fun r => or_unsized (snd (fst r))) new cs (or_introl eq_refl) P1 eq_refl (fun a b c => ex_intro _ b eq_refl) new H).
  - apply (L get_tm_volume); [intro c; apply U| |unfold get_tm_volume; rewrite B1; reflexivity].
    exact (swing_session_last tm_results (fun r => or_unsized (fst (fst r))) new cs (or_intror eq_refl) P2 eq_refl (fun a b c => ex_intro _ a eq_refl) new H).
  - apply (L get_tm_ca_volume); [intro c; apply U| |unfold get_tm_ca_volume; rewrite B2; reflexivity].
    exact (swing_session_last tm_results (fun r => or_unsized (snd (fst r))) new cs (or_intror eq_refl) P2 eq_refl (fun a b c => ex_intro _ b eq_refl) new H).
  - apply (L get_tm_capacity); [intro c; apply U| |unfold get_tm_capacity; rewrite B3; reflexivity].
    exact (swing_session_last tm_results (fun r => or_unsized (snd r)) new cs (or_intror eq_refl) P2 eq_refl (fun a b c => ex_intro _ c eq_refl) new H).
Qed.
Print Assumptions C75_swing_reports_last.

(** The five need not belong together: a sizing that raises (here for an aquastat at the very top of
    the tank) has already replaced the swing tank, but not the primary equipment. *)
Definition flat_building (gallons : Q) : building :=
  mkBuilding (Some (cz_from_design (Some 30) (Some 50))) gallons (repeat (1 # 24) 24) (repeat (1 # 24) 24) "custom".
Theorem C75_swing_mixed_refuted : exists new s1 s2 cap,
  sw_new 120 150 115 4 2 24 1 = Ok new /\
  swing_size ex_lib new (flat_building 1000) None ex_map 2 1 = (s1, flat_building 1000, Ok tt) /\
  swing_size ex_lib s1 (flat_building 100000) None (Some [("normal"%string, mkControls 1 110 1 130 150)]) 2 1 = (s2, flat_building 100000, Err ZeroDivisionError) /\
  get_capacity (sw_dhw s1) = Ok cap /\ get_capacity (sw_dhw s2) = Ok cap /\
  get_tm_volume s1 = Ok 40 /\ get_tm_volume s2 = Ok 80.
Proof.
  do 4 eexists. split; [vm_compute; reflexivity|]. split; [vm_compute; reflexivity|]. split; [vm_compute; reflexivity|].
  split; [vm_compute; reflexivity|]. split; [vm_compute; reflexivity|]. split; vm_compute; reflexivity.
Qed.
Print Assumptions C75_swing_mixed_refuted.
