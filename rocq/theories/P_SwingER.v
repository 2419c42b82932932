(** C46: resistance trade-off sizing. *)
From Verif Require Import Prelude M_StratifiedTank M_Building M_Heater M_Sizing S_Sizing L_Building L_Heater L_Sizing L_Sizing2 L_Sizing3 L_Sizing4 M_Swing S_Swing L_Swing L_Swing2 L_Swing3 L_Swing4 L_SwingER P_Swing.
Open Scope Q_scope.

(** ** The element closes the worst shortfall *)

(** For every sized system and daily building whose draws fit the tank: element sizing succeeds; the two
    days from the first deficit hour are simulated from an empty and from a full primary ([l1], [l2] are the
    minute-by-minute shortfalls below supply), and the element delivers in one minute the safety factor times
    the heat of the worst shortfall over the whole tank. *)
Theorem C46_er_closes_worst_shortfall : forall s b inlet cap full vol base,
  let k := mkTank (dh_supply (sw_dhw (er_base s))) (dh_storage (sw_dhw (er_base s))) inlet (sw_loss (er_base s)) vol base in
  let run := dh_run (sw_dhw (er_base s)) in
  design_inlet b = Ok inlet -> dh_min_cap (sw_dhw (er_base s)) = Some cap -> dh_min_stor (sw_dhw (er_base s)) = Some full ->
  sw_tm_vol (er_base s) = Some vol -> sw_tm_cap (er_base s) = Some base ->
  0 < vol -> 0 < base -> inlet < tk_supply k -> tk_supply k <= tk_storage k -> 0 < run ->
  length (bd_peak b) = 24%nat -> (forall x, In x (bd_peak b) -> 0 <= bd_daily b * x < 60 * vol) ->
  exists i gen l1 l2 worst er total,
    size_er s b = (mkEr (sw_set_cap (er_base s) total) (er_safety s) (Some er), Ok tt) /\
    total == base + er /\
    first_onset run (bd_peak b) i /\
    gen * 60 * btu_gal_f * (tk_storage k - inlet) == cap * 1000 /\
    let demand := map (minute_demand (bd_daily b) (bd_peak b) i) (seq 0 two_days) in
    er_days k gen full false (tk_supply k) 0 demand l1 /\
    er_days k gen full false (tk_supply k) full demand l2 /\
    (forall x, In x (l1 ++ l2) -> 0 <= x <= worst) /\ (worst == 0 \/ In worst (l1 ++ l2)) /\
    minute_btu er == er_safety s * (vol * btu_gal_f * worst) /\
    (0 <= er_safety s -> 0 <= er) /\
    (0 < er_safety s -> (er == 0 <-> forall x, In x (l1 ++ l2) -> x == 0)).
Proof.
  intros s b inlet cap full vol base k run Hi Ec Ef Ev Eb V0 B0 Hin Hst Hr LP SH.
  set (v := mkEnv (dh_supply (sw_dhw (er_base s))) (dh_storage (sw_dhw (er_base s))) inlet (sw_loss (er_base s)) vol base).
  destruct (er_demand_ok run (bd_daily b) (bd_peak b) Hr LP) as (i & dem & ED & FO & I24 & F2 & DI).
  assert (DB : forall x, In x dem -> 0 <= x < vol).
  { intros x X. destruct (DI x X) as (y & Y & ->). destruct (SH y Y) as [S0 S1]. split.
    - apply qdiv_nonneg; [|reflexivity]. rewrite Qmult_comm. exact S0.
    - apply qdiv_lt_iff; [reflexivity|]. lra. }
  assert (NZ : ~ rho_cp * (sv_storage v - sv_inlet v) == 0).
  { cbn [tk_storage tk_supply k] in Hst, Hin. assert (0 < rho_cp * (sv_storage v - sv_inlet v)).
    { apply qmul_pos; [reflexivity|]. cbn [v sv_storage sv_inlet]. lra. }
    lra. }
  set (gen := cap * 1000 / (rho_cp * (sv_storage v - sv_inlet v)) / 60).
  assert (EG : er_gen v cap = Ok gen) by (unfold er_gen; rewrite qdiv_ok by exact NZ; reflexivity).
  destruct (er_loop_ok v gen full V0 B0 Hin dem false (sv_supply v) 0 0 DB (Qle_refl _)) as (w1 & l1 & E1 & D1 & W1 & S1 & O1).
  destruct (er_loop_ok v gen full V0 B0 Hin dem false (sv_supply v) full w1 DB (Qle_refl _)) as (w2 & l2 & E2 & D2 & W2 & S2 & O2).
  exists i, gen, l1, l2, w2, (vol * rho_cp * 60 * w2 / 1000 * er_safety s), (base + vol * rho_cp * 60 * w2 / 1000 * er_safety s).
  split.
  { unfold size_er, er_element. rewrite Hi. cbn [bind]. rewrite Ec, Ef. unfold env_of. rewrite Ev, Eb. cbn [bind].
    fold run. rewrite ED. cbn [bind]. unfold er_deficit. fold v. rewrite EG. cbn [bind]. rewrite E1. cbn [bind]. rewrite E2. cbn [bind].
    reflexivity. }
  split; [reflexivity|]. split; [exact FO|]. split.
  { unfold gen. change btu_gal_f with rho_cp. cbn [tk_storage k].
    change (dh_storage (sw_dhw (er_base s)) - inlet) with (sv_storage v - sv_inlet v). assert (NS : ~ sv_storage v - sv_inlet v == 0) by (intro Z; apply NZ; rewrite Z; ring).
    field; repeat split; first [exact NS|intro Z; discriminate Z]. }
  cbv zeta. split; [apply (er_days_proper _ _ _ _ _ _ _ _ D1 gen); [reflexivity|exact F2]|].
  split; [apply (er_days_proper _ _ _ _ _ _ _ _ D2 gen); [reflexivity|exact F2]|].
  assert (ALL : forall x, In x (l1 ++ l2) -> 0 <= x <= w2).
  { intros x X. apply in_app_iff in X. destruct X as [X|X]; [destruct (S1 x X); lra|exact (S2 x X)]. }
  assert (OR : w2 == 0 \/ In w2 (l1 ++ l2)).
  { destruct O2 as [->|O2]; [|right; apply in_app_iff; right; exact O2].
    destruct O1 as [->|O1]; [left; reflexivity|right; apply in_app_iff; left; exact O1]. }
  split; [exact ALL|]. split; [exact OR|].
  assert (MB : minute_btu (vol * rho_cp * 60 * w2 / 1000 * er_safety s) == er_safety s * (vol * btu_gal_f * w2)).
  { unfold minute_btu. change btu_gal_f with rho_cp. field. }
  split; [exact MB|].
  assert (EE : vol * rho_cp * 60 * w2 / 1000 * er_safety s == er_safety s * (vol * rho_cp * (60 # 1000)) * w2) by field.
  assert (KP : 0 < vol * rho_cp * (60 # 1000)) by (apply qmul_pos; [apply qmul_pos; [exact V0|reflexivity]|reflexivity]).
  split.
  - intro P. rewrite EE. apply qmul_nonneg; [apply qmul_nonneg; lra|lra].
  - intro P. rewrite EE. assert (KS : 0 < er_safety s * (vol * rho_cp * (60 # 1000))) by (apply qmul_pos; assumption).
    split.
    + intros Z x X. apply Qmult_integral in Z. destruct Z as [Z|Z]; [lra|]. destruct (ALL x X). lra.
    + intro Z. assert (W : w2 == 0) by (destruct OR as [W|W]; [exact W|apply Z; exact W]). rewrite W. ring.
Qed.
Print Assumptions C46_er_closes_worst_shortfall.

(** Sizing a daily building without load shifting succeeds under the conditions of the swing system and
    adds an element on top of the swing tank's own. *)
Theorem C46_sizing_succeeds : forall lib s b sched m slope fract inlet factor,
  let base := er_base s in
  bd_is_annual b = false -> no_load_shift sched m ->
  design_inlet b = Ok inlet -> strat_factor (sw_dhw base) m slope inlet = Ok factor -> ~ factor == 0 ->
  inlet < dh_supply (sw_dhw base) -> dh_supply (sw_dhw base) <= dh_storage (sw_dhw base) ->
  0 < dh_run (sw_dhw base) -> ~ dh_defrost (sw_dhw base) == 0 -> 1 < sw_safety base -> 0 < sw_loss base ->
  length (bd_peak b) = 24%nat -> (forall x, In x (bd_peak b) -> 0 <= x) -> 0 < bd_daily b ->
  sw_loss base * 1000 <= 1250 * 100 * w_to_kbtuh ->
  (forall x, In x (bd_peak b) -> bd_daily b * x <= 1250 * 60) ->
  (forall x z, In x (bd_peak b) -> In z swing_table -> ~ bd_daily b * x == qz z * 60) -> 0 <= er_safety s ->
  exists s' er, swing_er_size lib s b sched m slope fract = (s', b, Ok tt) /\ er_cap s' = Some er /\ 0 <= er /\
    (exists t, sw_tm_cap (er_base s') = Some t /\ t == sw_safety base * sw_loss base + er).
Proof.
  intros lib s b sched m slope fract inlet factor base AN NL Hi Hf Nf Hin Hst Hr Hd Hs Hl LP P0 D0 CL CP NEQ ES.
  destruct (C43_sizing_succeeds lib base b sched m slope fract inlet factor AN NL Hi Hf Nf Hin Hst Hr Hd Hs (Qlt_le_weak _ _ Hl) LP P0 D0 CL CP NEQ) as (s1 & SZ).
  destruct (C45_smallest_adequate lib base b b sched m slope fract s1 b tt) as (z & ca & cap & TV & _ & TC & IN & ND & _ & _ & CE).
  { rewrite AN. reflexivity. } { lra. } { exact SZ. }
  destruct (swing_size_inv _ _ _ _ _ _ _ _ _ _ SZ) as (b1 & inlet' & sx & mo & rv & f & stor & cp & A1 & A2 & A3 & _ & _ & _ & _ & cap' & stor' & mix' & EX & _).
  unfold swing_er_size. fold base. rewrite SZ. set (e1 := mkEr s1 (er_safety s) (er_cap s)).
  assert (F1 : dh_supply (sw_dhw s1) = dh_supply (sw_dhw base) /\ dh_storage (sw_dhw s1) = dh_storage (sw_dhw base) /\ dh_run (sw_dhw s1) = dh_run (sw_dhw base) /\
     dh_min_cap (sw_dhw s1) = Some cap' /\ dh_min_stor (sw_dhw s1) = Some stor').
  { rewrite EX. repeat split; reflexivity. }
  destruct F1 as (F1 & F2 & F3 & F4 & F5).
  assert (ZP : 0 < qz z).
  { cbn in IN. repeat (destruct IN as [<-|IN]; [reflexivity|]). destruct IN. }
  assert (CP0 : 0 < cap) by (rewrite CE; apply qmul_pos; lra).
  destruct (C46_er_closes_worst_shortfall e1 b inlet cap' stor' (qz z) cap Hi F4 F5 TV TC ZP CP0) as (i & gen & l1 & l2 & w & er & total & E & T & _ & _ & _ & _ & _ & _ & _ & ER0 & _).
  { cbn [tk_supply e1 er_base]. rewrite F1. exact Hin. }
  { cbn [tk_supply tk_storage e1 er_base]. rewrite F1, F2. exact Hst. }
  { cbn [e1 er_base]. rewrite F3. exact Hr. }
  { exact LP. }
  { intros x X. split; [apply qmul_nonneg; [lra|apply P0; exact X]|].
    destruct ND as [_ ND]. specialize (ND x X). pose proof (NEQ x z X IN).
    destruct (Qlt_le_dec (bd_daily b * x) (60 * qz z)) as [A|A]; [exact A|]. exfalso. apply H. lra. }
  rewrite E. do 2 eexists. split; [reflexivity|]. cbn [er_cap er_base]. split; [reflexivity|]. split; [apply ER0; exact ES|].
  exists total. split; [reflexivity|]. rewrite T, CE. reflexivity.
Qed.
Print Assumptions C46_sizing_succeeds.

Definition er_system : swing_er := mkEr sw_system 1 None.
Example C46_case : exists s' er, swing_er_size sw_lib er_system sw_building None sw_controls 2 1 = (s', sw_building, Ok tt) /\ er_cap s' = Some er.
Proof.
  destruct (strat_factor (sw_dhw sw_system) sw_controls 2 50) as [f|] eqn:F; [|vm_compute in F; discriminate].
  destruct (C46_sizing_succeeds sw_lib er_system sw_building None sw_controls 2 1 50 f eq_refl (or_introl eq_refl) eq_refl F) as (s' & er & H & E & _);
    try lazymatch goal with
        | |- _ < _ => reflexivity
        | |- forall x, _ => idtac
        | |- _ <= _ => discriminate
        | |- ~ dh_defrost _ == 0 => discriminate
        | |- length _ = _ => reflexivity
        end.
  - vm_compute in F. inversion F. discriminate.
  - intros x H. unfold sw_building, sw_shape in H. cbn in H. repeat (destruct H as [<-|H]; [discriminate|]). destruct H.
  - intros x H. unfold sw_building, sw_shape in H. cbn in H. repeat (destruct H as [<-|H]; [discriminate|]). destruct H.
  - intros x z H Z. unfold sw_building, sw_shape in H. cbn in H, Z.
    repeat (destruct H as [<-|H]; [repeat (destruct Z as [<-|Z]; [discriminate|]); destruct Z|]). destruct H.
  - exists s', er. auto.
Qed.

(** ** An annual building can never be sized *)

Lemma vsub_len : forall a b l, vsub a b = Ok l -> length a = length b.
Proof.
  induction a as [|x a IH]; intros [|y b] l H; cbn [vsub] in H; try discriminate; [reflexivity|].
  apply bind_ok in H. destruct H as (r & R & _). cbn [length]. f_equal. eauto.
Qed.

Theorem C46_annual_never_sized : forall lib s b sched m slope fract s' b' out,
  bd_is_annual b = true -> library_annual lib b ->
  swing_er_size lib s b sched m slope fract = (s', b', out) -> exists e, out = Err e.
Proof.
  intros lib s b sched m slope fract s' b' out A LA H. unfold swing_er_size in H.
  destruct (swing_size lib (er_base s) b sched m slope fract) as [[s1 b1] o] eqn:SZ.
  destruct o as [w|e]; [|inversion H; eauto].
  destruct (C40_swing_size_keeps_system _ _ _ _ _ _ _ _ _ _ SZ) as (_ & _ & R & _). specialize (R w eq_refl (fun _ => LA)). subst b1.
  destruct (size_er (mkEr s1 (er_safety s) (er_cap s)) b) as [e2 o] eqn:SE. assert (out = o) by congruence. subst out. clear H. unfold size_er in SE. cbn [er_base er_safety] in SE.
  destruct (er_element s1 (er_safety s) b) as [[er t]|e] eqn:EE; [|inversion SE; eauto].
  exfalso. unfold er_element in EE. apply bind_ok in EE. destruct EE as (i & _ & EE).
  destruct (dh_min_cap (sw_dhw s1)); [|discriminate]. destruct (dh_min_stor (sw_dhw s1)); [|discriminate].
  apply bind_ok in EE. destruct EE as (v & _ & EE). apply bind_ok in EE. destruct EE as (dem & ED & _).
  unfold er_demand in ED. apply bind_ok in ED. destruct ED as (g & _ & ED). apply bind_ok in ED. destruct ED as (diff & VS & _).
  apply vsub_len in VS. rewrite repeat_length in VS. unfold bd_is_annual in A. rewrite <- VS in A. discriminate A.
Qed.
Print Assumptions C46_annual_never_sized.

Example C46_annual_case : exists lib b, bd_is_annual b = true /\ library_annual lib b.
Proof.
  set (an := repeat (1 # 365) (Z.to_nat 8760)).
  exists (mkLibrary (fun ty => if String.eqb ty "multi_family" then Some (mkShapeFile sw_shape (Some sw_shape) (Some an)) else None) (fun _ => Err KeyError) (fun _ => 0)).
  exists (mkBuilding None 1000 an an "multi_family"). split.
  - unfold bd_is_annual. cbn [bd_peak]. unfold an. rewrite repeat_length, Z2Nat.id by lia. reflexivity.
  - exists (mkShapeFile sw_shape (Some sw_shape) (Some an)). repeat split; reflexivity.
Qed.

(** ** Trade-off points *)

(** What a sweep over percentages leaves: the system but for element size and cap, the building but for its
    magnitude; the points follow the percentages; the 100 percent entry holds the sized total. *)
Lemma size_er_state s b s' o : size_er s b = (s', o) -> exists c e, s' = mkEr (mkSwing (sw_dhw (er_base s)) (sw_return (er_base s)) (sw_flow (er_base s))
    (sw_safety (er_base s)) (sw_eff_mix (er_base s)) (sw_tm_vol (er_base s)) (sw_tm_ca (er_base s)) c) (er_safety s) e.
Proof.
  unfold size_er. intro H. destruct (er_element (er_base s) (er_safety s) b) as [[er t]|x]; inversion H; subst.
  - exists (Some t), (Some er). reflexivity.
  - exists (sw_tm_cap (er_base s')), (er_cap s'). destruct s' as [[] ? ?]. reflexivity.
Qed.

Lemma er_points_spec daily base total add : forall is_ s b acc start s' b' pts st,
  er_points s b daily base total add is_ acc start = (s', b', Ok (pts, st)) ->
  (exists c e, s' = mkEr (mkSwing (sw_dhw (er_base s)) (sw_return (er_base s)) (sw_flow (er_base s))
     (sw_safety (er_base s)) (sw_eff_mix (er_base s)) (sw_tm_vol (er_base s)) (sw_tm_ca (er_base s)) c) (er_safety s) e) /\
  (exists g, b' = bd_set_magnitude b g) /\
  exists q, pts = acc ++ q /\ (exists tl, is_ = map fst q ++ tl) /\
    ((st = start /\ forall p, In p q -> ~ fst p == 100) \/
     (exists i, (length acc <= st)%nat /\ nth_error pts st = Some (i, qz (py_round (total / w_to_kbtuh))) /\ i == 100)).
Proof.
  induction is_ as [|i is_ IH]; intros s b acc start s' b' pts st H; cbn [er_points] in H.
  - inversion H; subst. split; [exists (sw_tm_cap (er_base s')), (er_cap s'); destruct s' as [[] ? ?]; reflexivity|].
    split; [exists (bd_daily b'); destruct b'; reflexivity|]. exists []. rewrite app_nil_r. split; [reflexivity|].
    split; [exists []; reflexivity|]. left. split; [reflexivity|]. intros p [].
  - destruct (Qeq_bool i 100) eqn:Q.
    + apply Qeq_bool_iff in Q.
      destruct (IH _ _ _ _ _ _ _ _ H) as (P1 & P2 & q & -> & (tl & ->) & P5). split; [exact P1|]. split; [exact P2|].
      exists ((i, qz (py_round (total / w_to_kbtuh))) :: q). rewrite <- app_assoc. split; [reflexivity|]. split; [exists tl; reflexivity|].
      right. destruct P5 as [[-> _]|(j & LE & N & J)].
      * exists i. split; [lia|]. split; [|exact Q]. try rewrite <- app_assoc. rewrite nth_error_app2 by lia. rewrite Nat.sub_diag. reflexivity.
      * exists j. rewrite app_length in LE. split; [lia|]. rewrite <- app_assoc in N. split; [exact N|exact J].
    + apply Qeq_bool_neq in Q.
      destruct (size_er (mkEr (sw_set_cap (er_base s) base) add None) (bd_set_magnitude b (daily * (i / 100)))) as [s2 o] eqn:SE.
      destruct o as [u|e]; [|discriminate].
      destruct (size_er_state _ _ _ _ SE) as (c & e & ->). cbn [er_base er_safety er_cap sw_tm_cap sw_set_cap sw_dhw sw_return sw_flow sw_safety sw_eff_mix sw_tm_vol sw_tm_ca] in H.
      destruct c as [t|]; [|discriminate]. destruct e as [er|]; [|discriminate].
      destruct (qltb 0 er).
      * destruct (IH _ _ _ _ _ _ _ _ H) as ((c & e & P1) & (g & P2) & q & P3 & (tl & P4) & P5).
        cbn [er_base er_safety sw_dhw sw_return sw_flow sw_safety sw_eff_mix sw_tm_vol sw_tm_ca] in P1.
        split; [exists c, e; exact P1|]. split; [exists g; rewrite P2; destruct b; reflexivity|].
        exists ((i, qz (py_round (t / w_to_kbtuh))) :: q). rewrite P3, <- app_assoc. split; [reflexivity|]. split; [exists tl; rewrite P4; reflexivity|].
        destruct P5 as [[-> P5]|(j & LE & N & J)].
        -- left. split; [reflexivity|]. intros p [<-|X]; [exact Q|apply P5; exact X].
        -- right. exists j. rewrite app_length in LE. split; [lia|]. rewrite P3, <- app_assoc in N. split; [exact N|exact J].
      * inversion H; subst. split; [do 2 eexists; reflexivity|]. split; [eexists; reflexivity|].
        exists [(i, qz (py_round (t / w_to_kbtuh)))]. split; [reflexivity|]. split; [exists is_; reflexivity|].
        left. split; [reflexivity|]. intros p [<-|[]]. exact Q.
Qed.

(** A successful sweep leaves system and building exactly as they were. *)
Theorem C46_points_restore : forall s b add s' b' r,
  er_sized_points s b add = (s', b', Ok r) -> s' = s /\ b' = b.
Proof.
  intros s b add s' b' r H. unfold er_sized_points in H.
  destruct (er_cap s) as [er|] eqn:E1; [|discriminate]. destruct (sw_tm_cap (er_base s)) as [total|] eqn:E2; [|destruct (Qle_bool er 0); discriminate].
  destruct (Qle_bool er 0); [discriminate|].
  destruct (er_points s b (bd_daily b) (total - er) total add er_fractions [] 0%nat) as [[s1 b1] o] eqn:P.
  destruct o as [[pts st]|e]; [|discriminate].
  destruct (er_points_spec _ _ _ _ _ _ _ _ _ _ _ _ _ P) as ((c & e & ->) & (g & ->) & _). clear P.
  apply pair_equal_spec in H. destruct H as [H _]. apply pair_equal_spec in H. destruct H as [<- <-].
  destruct s as [[] ? ?]; destruct b. cbn in E1, E2. subst. split; reflexivity.
Qed.
Print Assumptions C46_points_restore.

(** The points: one capacity per percentage, percentages 10 apart ending at 120, and when 100 percent is
    among them the returned index is its place and its capacity the sized total, rounded to whole kW. *)
Theorem C46_points_shape : forall s b add s' b' kw fr idx,
  er_sized_points s b add = (s', b', Ok (kw, fr, idx)) ->
  length kw = length fr /\ fr <> [] /\
  (forall i, (i < length fr)%nat -> nth i fr 0 == 120 - 10 * qz (Z.of_nat (length fr - 1 - i))) /\
  ((3 <= length fr)%nat \/ (exists x, In x fr /\ x == 100) ->
    (0 <= idx)%Z /\ nth (Z.to_nat idx) fr 0 == 100 /\
    exists total, sw_tm_cap (er_base s) = Some total /\ nth (Z.to_nat idx) kw 0 = qz (py_round (total / w_to_kbtuh))).
Proof.
  intros s b add s' b' kw fr idx H. unfold er_sized_points in H.
  destruct (er_cap s) as [er|] eqn:E1; [|discriminate]. destruct (sw_tm_cap (er_base s)) as [total|] eqn:E2; [|destruct (Qle_bool er 0); discriminate].
  destruct (Qle_bool er 0); [discriminate|].
  destruct (er_points s b (bd_daily b) (total - er) total add er_fractions [] 0%nat) as [[s1 b1] o] eqn:P.
  destruct o as [[pts st]|e]; [|discriminate]. apply pair_equal_spec in H. destruct H as [_ H]. apply ok_inj in H.
  injection H as <- <- <-.
  destruct (er_points_spec _ _ _ _ _ _ _ _ _ _ _ _ _ P) as (_ & _ & q & EQ & (tl & TL) & O). cbn [app] in EQ. subst q.
  assert (NE : pts <> []).
  { intro Z. subst pts. cbn [map app] in TL. clear O. change er_fractions with (120 :: map (fun i => qz (120 - 10 * Z.of_nat i)) (seq 1 11)) in P.
    cbn [er_points] in P. change (Qeq_bool 120 100) with false in P. cbv iota in P.
    destruct (size_er (mkEr (sw_set_cap (er_base s) (total - er)) add None) (bd_set_magnitude b (bd_daily b * (120 / 100)))) as [s2 [u|e]]; [|discriminate].
    cbn [er_base er_cap] in P. destruct (sw_tm_cap (er_base s2)); [|discriminate]. destruct (er_cap s2); [|discriminate].
    destruct (qltb 0 q0).
    - destruct (er_points_spec _ _ _ _ _ _ _ _ _ _ _ _ _ P) as (_ & _ & q' & EQ & _). discriminate EQ.
    - inversion P. }
  rewrite !rev_length, !map_length. split; [reflexivity|]. split.
  { intro Z. apply NE. apply (f_equal (@length _)) in Z. rewrite rev_length, map_length in Z. destruct pts; [reflexivity|discriminate]. }
  assert (LQ : (length pts <= 12)%nat).
  { apply (f_equal (@length _)) in TL. rewrite app_length, map_length in TL. unfold er_fractions in TL. rewrite map_length, seq_length in TL. lia. }
  assert (NTH : forall j, (j < length pts)%nat -> nth j (map fst pts) 0 = qz (120 - 10 * Z.of_nat j)).
  { intros j J. assert (E : nth j er_fractions 0 = nth j (map fst pts) 0) by (rewrite TL; apply app_nth1; rewrite map_length; exact J).
    rewrite <- E. unfold er_fractions. rewrite nth_indep with (d' := (fun i => qz (120 - 10 * Z.of_nat i)) 0%nat) by (rewrite map_length, seq_length; lia).
    rewrite (map_nth (fun i => qz (120 - 10 * Z.of_nat i))). rewrite seq_nth by lia. reflexivity. }
  split.
  { intros i I. rewrite rev_nth by (rewrite map_length; exact I). rewrite map_length. rewrite NTH by lia.
    replace (length pts - S i)%nat with (length pts - 1 - i)%nat by lia.
    unfold qz, Z.sub. rewrite inject_Z_plus, inject_Z_opp, inject_Z_mult. change (inject_Z 120) with 120. change (inject_Z 10) with 10. ring. }
  intro IN.
  assert (H100 : exists j, (j < length pts)%nat /\ nth j (map fst pts) 0 == 100).
  { destruct IN as [L|(x & X & XE)].
    - exists 2%nat. split; [lia|]. rewrite NTH by lia. reflexivity.
    - apply in_rev in X. apply (In_nth _ _ 0) in X. destruct X as (j & J & E). rewrite map_length in J. exists j. split; [exact J|]. rewrite E. exact XE. }
  destruct O as [[_ N]|(i & _ & ST & I)].
  { exfalso. destruct H100 as (j & J & E). apply (N (nth j pts (0, 0))); [apply nth_In; exact J|].
    change 0 with (fst (0, 0)) in E at 1. rewrite map_nth in E. exact E. }
  assert (SL : (st < length pts)%nat) by (apply nth_error_Some; rewrite ST; discriminate).
  replace (Z.of_nat (length pts) - 1 - Z.of_nat st)%Z with (Z.of_nat (length pts - 1 - st)) by lia.
  split; [lia|]. rewrite Nat2Z.id. rewrite !rev_nth by (rewrite map_length; lia). rewrite !map_length.
  replace (length pts - S (length pts - 1 - st))%nat with st by lia.
  apply (nth_error_nth pts st (0, 0)) in ST.
  split.
  - change 0 with (fst (0, 0)) at 1. rewrite map_nth, ST. exact I.
  - exists total. split; [reflexivity|]. change 0 with (snd (0, 0)). rewrite map_nth, ST. reflexivity.
Qed.
Print Assumptions C46_points_shape.

(** A sweep that raises leaves the building at the percentage it reached and the element unset: at 120 percent
    the peak minute no longer fits the tank that sizing chose for 100 percent. *)
Definition er_tight : swing_er :=
  mkEr (mkSwing (mkDhw 120 150 16 1 (Some 100) (Some 500) (Some 2)) 115 6 (3 # 2) 1 (Some 50) (Some 80) (Some 40)) 1 (Some 10).
Definition er_tight_building : building :=
  mkBuilding (Some (cz_from_design (Some 30) (Some 50))) 43200 sw_shape sw_shape "multi_family".
Theorem C46_points_error_refuted : exists s' b',
  er_sized_points er_tight er_tight_building 1 = (s', b', Err ValueError) /\
  bd_daily b' == bd_daily er_tight_building * (12 # 10) /\ er_cap s' = None /\
  (forall x, In x (bd_peak er_tight_building) -> bd_daily er_tight_building * x < 60 * 50).
Proof.
  destruct (er_sized_points er_tight er_tight_building 1) as [[s' b'] o] eqn:E. vm_compute in E. inversion E; subst.
  do 2 eexists. split; [reflexivity|]. split; [vm_compute; reflexivity|]. split; [reflexivity|].
  intros x X. unfold er_tight_building, sw_shape in X. cbn in X. repeat (destruct X as [<-|X]; [reflexivity|]). destruct X.
Qed.
Print Assumptions C46_points_error_refuted.

(** When the sweep ends before 100 percent (no element needed at 120 percent, here because the additional
    safety factor is 0) the returned index points at the 120 percent entry. *)
Definition er_small : swing_er :=
  mkEr (mkSwing (mkDhw 120 150 16 1 (Some 100) (Some 500) (Some 2)) 115 6 (3 # 2) 1 (Some 50) (Some 80) (Some 40)) 1 (Some 10).
Theorem C46_points_index_refuted : exists kw,
  er_sized_points er_small sw_building 0 = (er_small, sw_building, Ok ([kw], [120], 0%Z)).
Proof.
  set (b1 := bd_set_magnitude sw_building (bd_daily sw_building * (120 / 100))).
  destruct (C46_er_closes_worst_shortfall (mkEr (sw_set_cap (er_base er_small) (40 - 10)) 0 None) b1 50 100 500 50 (40 - 10)
              eq_refl eq_refl eq_refl eq_refl eq_refl) as (i & gen & l1 & l2 & w & er & total & E & T & _ & _ & _ & _ & _ & _ & MB & _ & _);
    try lazymatch goal with
        | |- _ < _ => reflexivity
        | |- forall x, _ => idtac
        | |- _ <= _ => discriminate
        | |- length _ = _ => reflexivity
        end.
  - intros x X. unfold b1, sw_building, sw_shape in X. cbn in X.
    repeat (destruct X as [<-|X]; [split; [discriminate|reflexivity]|]). destruct X.
  - cbn [er_safety] in MB, E. assert (Z : er == 0).
    { unfold minute_btu in MB. assert (er * 1000 / 60 * (60 # 1000) == 0) by (rewrite MB; ring).
      assert (er * 1000 / 60 * (60 # 1000) == er) by field. lra. }
    exists (qz (py_round (total / w_to_kbtuh))).
    assert (EP : er_points er_small sw_building (bd_daily sw_building) (40 - 10) 40 0 er_fractions [] 0%nat =
      (mkEr (sw_set_cap (er_base er_small) total) 1 (Some er), b1, Ok ([(120, qz (py_round (total / w_to_kbtuh)))], 0%nat))).
    { change er_fractions with (120 :: map (fun i => qz (120 - 10 * Z.of_nat i)) (seq 1 11)). cbn [er_points].
      change (Qeq_bool 120 100) with false. cbv iota. fold b1. rewrite E.
      cbn [er_base er_cap er_safety sw_tm_cap sw_set_cap]. 
      destruct (qltb 0 er) eqn:Q; qbool; [lra|]. reflexivity. }
    unfold er_sized_points. cbn [er_cap er_small sw_tm_cap er_base]. change (Qle_bool 10 0) with false. cbv iota.
    fold er_small. rewrite EP. reflexivity.
Qed.
Print Assumptions C46_points_index_refuted.
