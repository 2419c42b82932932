(** Heat in the overlay tank, call by call. *)
From Verif Require Import Prelude S_Integral L_Integral L_Ramp M_StratifiedTank M_EnergyTank S_EnergyTank L_EnergyTank L_Slug S_SlugCycle L_SlugCycle.
Open Scope Q_scope.

(** What an active tank holds: slug and hot zone. *)
Definition zy (t : slug) : Q := (1 - (sl_vol t - sl_orig t) / en_vol (sl_base t)) * 100.
Definition zx (t : slug) : Q := (1 - sl_pu t + sl_orig t / en_vol (sl_base t)) * 100.
Definition act_heat (t : slug) (s : Q) : Q :=
  rho_cp * (sl_vol t * (sl_temp t - en_cold (sl_base t))) +
  rho_cp * (en_vol (sl_base t) / 100 * (P0 (sl_base t) s (zy t) - P0 (sl_base t) s (zx t))).

Lemma zone_facts lo h t : sl_inv lo h t -> sl_active t = true ->
  sl_max t - sl_vol t == (zy t - zx t) / 100 * en_vol (sl_base t) /\ zx t <= zy t /\ zy t <= 100 /\ en_cold_pct (sl_base t) <= zx t /\
  sl_top t == 100 - (zy t - zx t).
Proof.
  intros I Ha. pose proof I as [[A1 [A2 [A3 A4]]] [B [C [[D1 [D2 D3]] [E F]]]]]. destruct (F Ha) as [[F1 [F2 F3]] [F4 F5]].
  set (V := en_vol (sl_base t)) in *.
  assert (X : sl_max t - sl_vol t == (zy t - zx t) / 100 * V).
  { rewrite C. unfold zy, zx. fold V. field. lra. }
  split; [exact X|]. split.
  { destruct (Qlt_le_dec (zy t) (zx t)) as [Z|Z]; [|exact Z]. exfalso.
    assert (0 < (zx t - zy t) / 100 * V) by (apply qmul_pos; [apply qdiv_pos; lra|lra]).
    assert (Z2 : (zy t - zx t) / 100 * V == - ((zx t - zy t) / 100 * V)) by field. lra. }
  split.
  { unfold zy. fold V. assert (0 <= (sl_vol t - sl_orig t) / V) by (apply qdiv_nonneg; lra). lra. }
  split.
  { unfold zx. fold V. rewrite B. assert (0 <= sl_orig t / V) by (apply qdiv_nonneg; lra). lra. }
  rewrite F4, B. unfold zy, zx. fold V. field. lra.
Qed.

Lemma P0_slice b s x y : en_wf b -> en_cold b < en_storage b -> en_cold_pct b <= x -> x <= y ->
  0 <= P0 b s y - P0 b s x /\ P0 b s y - P0 b s x <= (ramp (en_cold b) (en_storage b) (en_slope b) (- s) y - en_cold b) * (y - x).
Proof.
  intros [HV [Hm [H0 H1]]] Hc Hx Hxy. pose proof (en_w_pos b Hm Hc) as Hw. pose proof (en_w_eq b Hm) as Ew.
  destruct (ramp_squeezes (en_cold b) (en_storage b) (en_slope b) (- s) (en_w b) x y Hm ltac:(lra) ltac:(lra) x y) as [A B]; try lra.
  rewrite !(ramp_F_split (en_cold b)) in A, B. fold (P0 b s x) (P0 b s y) in A, B.
  pose proof (ramp_range (en_cold b) (en_storage b) (en_slope b) (- s) x ltac:(lra)) as [R1 _].
  assert (0 <= (ramp (en_cold b) (en_storage b) (en_slope b) (- s) x - en_cold b) * (y - x)) by (apply qmul_nonneg; lra).
  split; lra.
Qed.

(** The hot zone's heat over [g] gallons, at most as hot as its upper end. *)
Lemma zone_heat b s x y g top : en_wf b -> en_cold b < en_storage b -> en_cold_pct b <= x -> x <= y ->
  (x < y -> top == ramp (en_cold b) (en_storage b) (en_slope b) (- s) y) -> g == (y - x) / 100 * en_vol b ->
  0 <= en_vol b / 100 * (P0 b s y - P0 b s x) /\ en_vol b / 100 * (P0 b s y - P0 b s x) <= g * (top - en_cold b).
Proof.
  intros W Hc Hx Hxy Ht Hg. destruct (P0_slice b s x y W Hc Hx Hxy) as [A B]. pose proof W as [HV _].
  assert (V1 : 0 < en_vol b / 100) by (apply qdiv_pos; lra).
  split; [apply qmul_nonneg; lra|].
  destruct (Qlt_le_dec x y) as [Z|Z].
  - rewrite <- (Ht Z) in B. rewrite Hg. assert (Y : (y - x) / 100 * en_vol b * (top - en_cold b) == en_vol b / 100 * ((top - en_cold b) * (y - x))) by field.
    rewrite Y. apply Qmult_le_l; lra.
  - assert (Z1 : x == y) by lra. rewrite (P0_wd b s _ _ Z1). assert (Y : g == 0) by (rewrite Hg; rewrite Z1; field).
    rewrite Y. apply Qle_lteq. right. field.
Qed.

Lemma held_active lo h t s : sl_inv lo h t -> sl_active t = true -> en_cold (sl_base t) <= sl_temp t ->
  en_shift (sl_base t) = Ok s -> exists e, held t e /\ e == act_heat t s.
Proof.
  intros I Ha Hc Hs. destruct (zone_facts lo h t I Ha) as [Z1 [Z2 [Z3 [Z4 Z5]]]].
  pose proof (sl_inv_wf _ _ _ I) as W. pose proof I as [[A1 [A2 [A3 A4]]] [B [C [[D1 [D2 D3]] [E F]]]]]. destruct (F Ha) as [[F1 [F2 F3]] [F4 F5]].
  assert (Hcs : en_cold (sl_base t) < en_storage (sl_base t)) by lra.
  assert (Hr : 0 < rho_cp) by apply en_rho_pos.
  assert (Eb : forall x, 0 <= x -> qmax 0 x == x) by (intros; qmm; lra).
  assert (SHp : 0 <= sl_vol t * rho_cp * (sl_temp t - en_cold (sl_base t))).
  { apply qmul_nonneg; [apply qmul_nonneg; lra|lra]. }
  unfold held, sl_deactivate; cbv zeta. rewrite Ha. cbn [negb].
  set (b := sl_base t) in *. set (V := en_vol b) in *.
  destruct (Qle_bool 100 (sl_top t)) eqn:Q100; qbool; [cbn [bind]|rewrite qdiv_ok by lra; cbn [bind]].
  - eexists. split; [eexists; split; [reflexivity|]; cbn [sl_base en_energy en_set_energy]; apply Qeq_refl|].
    rewrite (Eb _ SHp). unfold act_heat. fold b. assert (Hx : zy t == zx t) by lra. rewrite (P0_wd b s _ _ Hx). field.
  - set (gq := (sl_vol t - sl_orig t) / V) in *.
    set (hi := 100 - gq * 100). assert (Hhi : hi == zy t) by (unfold hi, zy; fold b V gq; ring).
    set (lo' := hi - (100 - sl_top t)).
    assert (Hlo : lo' == zx t) by (unfold lo'; rewrite Hhi, Z5; ring).
    assert (CP : 0 <= en_cold_pct b) by apply W.
    destruct (en_zone_avg_ok b s lo' hi W Hcs Hs) as [a2 [Ea2 Haa2]]; try lra.
    rewrite Ea2. cbn [bind]. eexists. split; [eexists; split; [reflexivity|]; cbn [sl_base en_energy en_set_energy]; apply Qeq_refl|].
    destruct (en_zone_avg_between b lo' hi a2 W Hcs ltac:(lra) ltac:(lra) Ea2) as [Q1 _].
    rewrite Hlo, Hhi in Haa2. rewrite !(ramp_F_split (en_cold b)) in Haa2. fold (P0 b s (zy t)) (P0 b s (zx t)) in Haa2.
    assert (Y : (zy t - zx t) * (a2 - en_cold b) == P0 b s (zy t) - P0 b s (zx t)) by lra.
    assert (H2 : qmax 0 (sl_max t - sl_vol t) * rho_cp * (a2 - en_cold b) == rho_cp * (V / 100 * (P0 b s (zy t) - P0 b s (zx t)))).
    { rewrite (Eb (sl_max t - sl_vol t)) by lra. rewrite Z1, <- Y. field. }
    assert (H2p : 0 <= qmax 0 (sl_max t - sl_vol t) * rho_cp * (a2 - en_cold b)).
    { apply qmul_nonneg; [apply qmul_nonneg; [apply qmax_l|lra]|lra]. }
    rewrite (Eb _ SHp), (Eb _ H2p), H2. unfold act_heat. fold b V. ring.
Qed.

(** The temperature at the very top of an active tank. *)
Lemma top_active lo h t s top : sl_inv lo h t -> sl_active t = true -> en_shift (sl_base t) = Ok s -> sl_temp_at t 1 = Ok top ->
  zx t < zy t -> top == ramp (en_cold (sl_base t)) (en_storage (sl_base t)) (en_slope (sl_base t)) (- s) (zy t).
Proof.
  intros I Ha Hs E Hz. destruct (zone_facts lo h t I Ha) as [Z1 [Z2 [Z3 [Z4 Z5]]]].
  pose proof (sl_inv_wf _ _ _ I) as W. pose proof W as [V0 [_ [_ CP]]].
  unfold sl_temp_at in E. cbv zeta in E. rewrite Ha in E. cbn [negb] in E.
  destruct (qltb (1 * 100) _) eqn:Q1; qbool; [lra|].
  destruct (Qle_bool (1 * 100) (sl_top t)) eqn:Q2; qbool; [lra|].
  rewrite qdiv_ok in E by lra. cbn [bind] in E.
  destruct (en_temp_ok (sl_base t) s (1 - (sl_vol t - sl_orig t) / en_vol (sl_base t)) Hs) as [x [Ex Px]].
  rewrite E in Ex. injection Ex as <-. rewrite Px. unfold en_prof.
  fold (zy t). destruct (qltb (zy t) _) eqn:Q3; qbool; [lra|reflexivity].
Qed.

(** A draw, active: the tank loses no more than [g] gallons at the hottest temperature in it, and
    gains no more than the returning water's heat. *)
Lemma held_draw_active lo h t s g c top M e : sl_inv lo h t -> sl_active t = true -> en_cold (sl_base t) <= sl_temp t ->
  en_shift (sl_base t) = Ok s -> sl_temp_at t 1 = Ok top -> top <= M -> sl_temp t <= M ->
  0 < g -> en_cold (sl_base t) <= c -> c < h -> c <= M -> held t e ->
  exists t' e', sl_draw_physical t g c false = Ok t' /\ held t' e' /\ e - rho_cp * g * (M - c) <= e' /\ e' <= e + rho_cp * g * (c - en_cold (sl_base t)).
Proof.
  intros I Ha Hc Hs Et M1 M2 Hg C1 C2 C3 He.
  destruct (held_active lo h t s I Ha Hc Hs) as [e1 [He1 Ee]].
  assert (Ee1 : e == act_heat t s).
  { destruct He as [u [U1 U2]]. destruct He1 as [v [V1 V2]]. rewrite U1 in V1. injection V1 as <-. lra. }
  clear e1 He1 Ee He.
  destruct (zone_facts lo h t I Ha) as [Z1 [Z2 [Z3 [Z4 Z5]]]].
  pose proof (sl_inv_wf _ _ _ I) as W. pose proof I as [[A1 [A2 [A3 A4]]] [B [C [[D1 [D2 D3]] [E F]]]]]. destruct (F Ha) as [[F1 [F2 F3]] [F4 F5]].
  assert (Hcs : en_cold (sl_base t) < en_storage (sl_base t)) by lra.
  assert (Hr : 0 < rho_cp) by apply en_rho_pos.
  destruct (sl_draw_inv lo h t g c false I ltac:(lra) C2) as [t' [E' [I' [G' Act']]]]. rewrite Ha in Act'.
  pose proof (top_active lo h t s top I Ha Hs Et) as TA.
  set (b := sl_base t) in *. set (V := en_vol b) in *.
  set (a := sl_max t - sl_vol t) in *.
  assert (A0 : 0 <= a) by (unfold a; lra).
  (* the whole hot zone *)
  destruct (zone_heat b s (zx t) (zy t) a top W Hcs Z4 Z2 TA ltac:(exact Z1)) as [ZH1 ZH2]. fold V in ZH1, ZH2.
  exists t'. pose proof E' as E0'. unfold sl_draw_physical in E'. cbv zeta in E'. rewrite Ha in E'. cbn [negb] in E'.
  set (av := qmax 0 (sl_max t - sl_vol t)) in *.
  assert (Eav : av == a) by (unfold av, a; qmm; unfold a in *; lra).
  destruct (qltb av g) eqn:Eo; qbool.
  - (* more than the hot zone *)
    assert (Ev : sl_vol t - (g - av) == sl_max t - g) by (unfold a in Eav; lra).
    assert (K : sl_base t' = b /\ sl_orig t' = sl_orig t /\ sl_pu t' = sl_pu t /\ sl_vol t' = sl_max t /\
      (g < sl_max t -> sl_max t * sl_temp t' == (sl_max t - g) * sl_temp t + g * c) /\ (sl_max t <= g -> sl_temp t' == c)).
    { unfold sl_add in E'. cbn [sl_active negb orb sl_vol sl_base] in E'. destruct (Qle_bool g 0) eqn:Eg; qbool; [lra|].
      destruct (Qle_bool (sl_vol t - (g - av)) 0) eqn:Ez; qbool.
      - cbn [bind] in E'. rewrite sl_top_of_ok in E' by exact A1. cbn [bind] in E'. injection E' as <-. cbn. repeat split; try (intro; lra); reflexivity.
      - rewrite qdiv_ok in E' by lra. cbn [bind sl_base] in E'. rewrite sl_top_of_ok in E' by exact A1. cbn [bind] in E'. injection E' as <-. cbn.
        repeat split; try (intro; lra). intros _. assert (Es : sl_vol t - (g - av) + g == sl_max t) by lra. rewrite Es, Ev. field. lra. }
    destruct K as [K1 [K2 [K3 [K4 [K5 K6]]]]].
    assert (MX : 0 < sl_max t) by (rewrite C; apply qmul_pos; lra).
    assert (T1 : en_cold b <= sl_temp t').
    { destruct (Qlt_le_dec g (sl_max t)) as [L|L]; [|rewrite (K6 L); exact C1].
      specialize (K5 L). destruct (Qlt_le_dec (sl_temp t') (en_cold b)) as [Y|Y]; [|exact Y]. exfalso.
      assert (0 < sl_max t * (en_cold b - sl_temp t')) by (apply qmul_pos; lra).
      assert (0 <= (sl_max t - g) * (sl_temp t - en_cold b)) by (apply qmul_nonneg; lra).
      assert (0 <= g * (c - en_cold b)) by (apply qmul_nonneg; lra). lra. }
    destruct (held_active lo h t' s I' Act') as [e' [He' Ee']]; [rewrite K1; exact T1|rewrite K1; exact Hs|].
    exists e'. split; [exact E0'|]. split; [exact He'|].
    destruct (zone_facts lo h t' I' Act') as [Y1 [Y2 _]].
    assert (ZZ : zy t' == zx t').
    { unfold zy, zx. rewrite K1, K2, K3, K4. fold V. rewrite C. field. lra. }
    assert (Ee2 : e' == rho_cp * (sl_max t * (sl_temp t' - en_cold b))).
    { rewrite Ee'. unfold act_heat. rewrite K1, K4. rewrite (P0_wd b s _ _ ZZ). ring. }
    assert (Ee3 : e == rho_cp * (sl_vol t * (sl_temp t - en_cold b) + V / 100 * (P0 b s (zy t) - P0 b s (zx t)))).
    { rewrite Ee1. unfold act_heat. fold b V. ring. }
    set (hz := V / 100 * (P0 b s (zy t) - P0 b s (zx t))) in *.
    assert (ZM : a * (top - en_cold b) <= a * (M - en_cold b)) by (rewrite (Qmult_comm a), (Qmult_comm a); apply Qmult_le_compat_r; lra).
    assert (SM : (sl_vol t) * (sl_temp t - en_cold b) <= sl_vol t * (M - en_cold b)) by (rewrite (Qmult_comm (sl_vol t)), (Qmult_comm (sl_vol t)); apply Qmult_le_compat_r; lra).
    assert (R : forall x y, x <= y -> rho_cp * x <= rho_cp * y) by (intros; apply Qmult_le_l; lra).
    destruct (Qlt_le_dec g (sl_max t)) as [L|L].
    + assert (Z6 : sl_max t * (sl_temp t' - en_cold b) == (sl_max t - g) * (sl_temp t - en_cold b) + g * (c - en_cold b)).
      { assert (Q : sl_max t * (sl_temp t' - en_cold b) == sl_max t * sl_temp t' - sl_max t * en_cold b) by ring. rewrite Q, (K5 L). ring. }
      split.
      * assert (X : sl_vol t * (sl_temp t - en_cold b) + hz - g * (M - c) <= sl_max t * (sl_temp t' - en_cold b)).
        { rewrite Z6.
          assert (P1 : (g - a) * (sl_temp t - en_cold b) <= (g - a) * (M - en_cold b)) by (apply Qmult_le_l; lra).
          assert (P2 : sl_max t == sl_vol t + a) by (unfold a; ring). rewrite P2.
          assert (P3 : (sl_vol t + a - g) * (sl_temp t - en_cold b) == sl_vol t * (sl_temp t - en_cold b) - (g - a) * (sl_temp t - en_cold b)) by ring.
          rewrite P3. lra. }
        apply R in X. rewrite Ee3, Ee2. lra.
      * assert (X : sl_max t * (sl_temp t' - en_cold b) <= sl_vol t * (sl_temp t - en_cold b) + hz + g * (c - en_cold b)).
        { rewrite Z6. assert (P2 : sl_max t == sl_vol t + a) by (unfold a; ring). rewrite P2.
          assert (P3 : 0 <= (g - a) * (sl_temp t - en_cold b)) by (apply qmul_nonneg; lra).
          assert (P4 : (sl_vol t + a - g) * (sl_temp t - en_cold b) == sl_vol t * (sl_temp t - en_cold b) - (g - a) * (sl_temp t - en_cold b)) by ring.
          rewrite P4. lra. }
        apply R in X. rewrite Ee3, Ee2. lra.
    + rewrite (K6 L) in Ee2. split.
      * assert (X : sl_vol t * (sl_temp t - en_cold b) + hz - g * (M - c) <= sl_max t * (c - en_cold b)).
        { assert (P2 : sl_max t == sl_vol t + a) by (unfold a; ring).
          assert (P1 : sl_max t * (M - c) <= g * (M - c)) by (apply Qmult_le_compat_r; lra).
          assert (P3 : sl_vol t * (M - en_cold b) + a * (M - en_cold b) == sl_max t * (M - c) + sl_max t * (c - en_cold b)) by (rewrite P2; ring).
          lra. }
        apply R in X. rewrite Ee3, Ee2. lra.
      * assert (X : sl_max t * (c - en_cold b) <= sl_vol t * (sl_temp t - en_cold b) + hz + g * (c - en_cold b)).
        { assert (P1 : sl_max t * (c - en_cold b) <= g * (c - en_cold b)) by (apply Qmult_le_compat_r; lra).
          assert (0 <= sl_vol t * (sl_temp t - en_cold b)) by (apply qmul_nonneg; lra). lra. }
        apply R in X. rewrite Ee3, Ee2. lra.
  - (* fits *)
    match type of E' with context [sl_add ?x g c] => set (t1 := x) in * end.
    destruct (sl_add_ok t1 g c) as [t2 [X1 [G1 [G2 [G3 [G4 [G5 [_ [G6 [G7 G8]]]]]]]]]]; cbn; try lra; auto.
    rewrite X1 in E'. cbn [bind] in E'. injection E' as ->. cbn in G1, G3, G4, G5, G6, G7, G8. fold b in G1.
    assert (T1 : en_cold b <= sl_temp t').
    { destruct (Qlt_le_dec (sl_temp t') (en_cold b)) as [Y|Y]; [|exact Y]. exfalso.
      assert (0 < sl_vol t' * (en_cold b - sl_temp t')) by (apply qmul_pos; lra).
      assert (0 <= sl_vol t * (sl_temp t - en_cold b)) by (apply qmul_nonneg; lra).
      assert (0 <= g * (c - en_cold b)) by (apply qmul_nonneg; lra).
      assert (Q : sl_vol t' * (sl_temp t' - en_cold b) == sl_vol t' * sl_temp t' - sl_vol t' * en_cold b) by ring.
      rewrite G7, G6 in Q. assert (Q2 : (sl_vol t + g) * (en_cold b - sl_temp t') == - ((sl_vol t + g) * (sl_temp t' - en_cold b))) by ring. rewrite G6 in H. lra. }
    destruct (held_active lo h t' s I' Act') as [e' [He' Ee']]; [rewrite G1; exact T1|rewrite G1; exact Hs|].
    exists e'. split; [exact E0'|]. split; [exact He'|].
    assert (ZX : zx t' == zx t) by (unfold zx; rewrite G1, G4, G5; fold b V; reflexivity).
    assert (ZY : zy t' == zy t - g / V * 100) by (unfold zy; rewrite G1, G4, G6; fold b V; field; lra).
    assert (GV : 0 < g / V) by (apply qdiv_pos; lra).
    destruct (zone_facts lo h t' I' Act') as [Y1 [Y2 _]]. 
    destruct (zone_heat b s (zy t') (zy t) g top W Hcs ltac:(lra) ltac:(lra)) as [H1 H2].
    { intro L. apply TA. lra. }
    { rewrite ZY. fold V. field. lra. }
    fold V in H1, H2.
    assert (Z6 : sl_vol t' * (sl_temp t' - en_cold b) == sl_vol t * (sl_temp t - en_cold b) + g * (c - en_cold b)).
    { assert (Q : sl_vol t' * (sl_temp t' - en_cold b) == sl_vol t' * sl_temp t' - sl_vol t' * en_cold b) by ring. rewrite Q, G7, G6. ring. }
    assert (Ee2 : e' == rho_cp * (sl_vol t * (sl_temp t - en_cold b) + g * (c - en_cold b) + V / 100 * (P0 b s (zy t') - P0 b s (zx t)))).
    { rewrite Ee'. unfold act_heat. rewrite G1. fold V. rewrite Z6, (P0_wd b s _ _ ZX). ring. }
    assert (Ee3 : e == rho_cp * (sl_vol t * (sl_temp t - en_cold b) + V / 100 * (P0 b s (zy t') - P0 b s (zx t)) + V / 100 * (P0 b s (zy t) - P0 b s (zy t')))).
    { rewrite Ee1. unfold act_heat. fold b V. ring. }
    set (sl := V / 100 * (P0 b s (zy t) - P0 b s (zy t'))) in *.
    assert (ZM : g * (top - en_cold b) <= g * (M - en_cold b)) by (rewrite (Qmult_comm g), (Qmult_comm g); apply Qmult_le_compat_r; lra).
    assert (R : forall x y, x <= y -> rho_cp * x <= rho_cp * y) by (intros; apply Qmult_le_l; lra).
    assert (R1 := R _ _ H1). assert (R2 : rho_cp * sl <= rho_cp * (g * (M - en_cold b))) by (apply R; lra).
    rewrite Ee2, Ee3. split; lra.
Qed.

Lemma held_unique t e e' : held t e -> held t e' -> e == e'.
Proof. intros [u [U1 U2]] [v [V1 V2]]. rewrite U1 in V1. injection V1 as <-. lra. Qed.

Lemma held_inactive t : sl_active t = false -> held t (en_energy (sl_base t)).
Proof. intros H. exists t. split; [apply sl_deactivate_inactive; exact H|reflexivity]. Qed.

(** Heating an active slug that holds water. *)
Lemma held_heat lo h t s k d e : sl_inv lo h t -> sl_active t = true -> en_cold (sl_base t) <= sl_temp t ->
  en_shift (sl_base t) = Ok s -> 0 < sl_vol t -> 0 <= k -> 0 <= d -> held t e ->
  exists t' e', sl_heat t k d = Ok t' /\ held t' e' /\ e' == e + k * 1000 * (d / 60) /\
    sl_inv lo h t' /\ sl_active t' = true /\ sl_base t' = sl_base t /\ sl_temp t <= sl_temp t' /\
    sl_vol t' = sl_vol t /\ sl_top t' = sl_top t /\ sl_orig t' = sl_orig t.
Proof.
  intros I Ha Hc Hs Hv Hk Hd He.
  destruct (cyc_heat t k d Ha Hv Hk) as [t' [E [B1 [B2 [B3 [B4 [B5 [B6 [B7 B8]]]]]]]]].
  destruct (sl_heat_inv lo h t k d I ltac:(apply qmul_nonneg; lra)) as [t2 [E2 [I2 _]]]. rewrite E in E2. injection E2 as <-.
  assert (Hr : 0 < rho_cp) by apply en_rho_pos.
  assert (Hq : 0 <= k * 1000 * d / 60) by (apply qdiv_nonneg; [apply qmul_nonneg; [apply qmul_nonneg; lra|lra]|lra]).
  assert (T : sl_temp t <= sl_temp t').
  { destruct (Qlt_le_dec (sl_temp t') (sl_temp t)) as [Z|Z]; [|exact Z]. exfalso.
    assert (0 < sl_vol t * rho_cp * (sl_temp t - sl_temp t')) by (apply qmul_pos; [apply qmul_pos; lra|lra]). lra. }
  destruct (held_active lo h t s I Ha Hc Hs) as [e1 [H1 E1]]. pose proof (held_unique _ _ _ He H1) as U.
  destruct (held_active lo h t' s I2 B2) as [e' [H2 E3]]; [rewrite B1; lra|rewrite B1; exact Hs|].
  exists t', e'. split; [exact E|]. split; [exact H2|]. split.
  { rewrite E3, U, E1. unfold act_heat, zy, zx. rewrite B1, B4, B5, B6.
    assert (Y : k * 1000 * (d / 60) == k * 1000 * d / 60) by field. rewrite Y, <- B8. ring. }
  repeat (split; [assumption|]). exact B4.
Qed.

(** A draw without a slug. *)
Lemma held_draw_inactive lo h t g c top : sl_inv lo h t -> sl_active t = false -> sl_temp_at t 1 = Ok top ->
  0 < g -> en_cold (sl_base t) <= c -> c < h -> c <= top ->
  exists t' e', sl_draw_physical t g c false = Ok t' /\ held t' e' /\
    en_energy (sl_base t) - rho_cp * g * (top - c) <= e' /\ e' <= en_energy (sl_base t).
Proof.
  intros I Ha Et Hg C1 C2 C3.
  pose proof (sl_inv_wf _ _ _ I) as W. pose proof I as [[A1 [A2 [A3 A4]]] [B [C [[D1 [D2 D3]] [E F]]]]].
  assert (Hcs : en_cold (sl_base t) < en_storage (sl_base t)) by lra.
  assert (Hr : 0 < rho_cp) by apply en_rho_pos.
  destruct (en_shift_ok (sl_base t) W Hcs) as [s [Hs _]].
  destruct (sl_draw_inv lo h t g c false I ltac:(lra) C2) as [t' [E' [I' [G' Act']]]]. rewrite Ha in Act'.
  exists t'. exists (en_energy (sl_base t')). split; [exact E'|]. split; [apply held_inactive; exact Act'|].
  unfold sl_draw_physical in E'. rewrite Ha in E'. cbn [negb] in E'.
  destruct (bind_ok _ _ _ E') as (b' & Eb & E2). injection E2 as <-. cbn [sl_base].
  unfold en_draw_physical in Eb. cbv zeta in Eb. destruct (Qle_bool g 0) eqn:Q0; qbool; [lra|].
  destruct (bind_ok _ _ _ Eb) as (a & Ea & E3). injection E3 as <-. cbn [en_energy en_set_energy].
  set (b := sl_base t) in *.
  assert (TT : top == ramp (en_cold b) (en_storage b) (en_slope b) (- s) 100).
  { unfold sl_temp_at in Et. rewrite Ha in Et. cbn [negb] in Et. fold b in Et.
    destruct (en_temp_ok b s 1 Hs) as [x [Ex Px]]. rewrite Et in Ex. injection Ex as <-. rewrite Px. unfold en_prof.
    destruct (qltb (1 * 100) _) eqn:Q3; qbool; [destruct W as [_ [_ [_ W4]]]; lra|].
    assert (Y : 1 * 100 == 100) by reflexivity. unfold ramp. rewrite Y. reflexivity. }
  assert (AT : a <= top).
  { unfold en_avg in Ea. cbv zeta in Ea. set (g' := qmin g (en_vol b)) in *.
    assert (G1 : 0 < g') by (unfold g'; qmm; lra). assert (G2 : g' <= en_vol b) by (unfold g'; apply qmin_r).
    destruct (Qle_bool g' 0) eqn:Qg; qbool; [lra|]. rewrite qdiv_ok in Ea by lra. cbn [bind] in Ea.
    assert (Q1 : 0 < g' / en_vol b) by (apply qdiv_pos; lra).
    assert (Q2 : g' / en_vol b <= 1) by (apply qdiv_le_iff; lra).
    set (x := qmax 0 (100 - g' / en_vol b * 100)) in *.
    assert (X0 : 0 <= x) by apply qmax_l. assert (X1 : x < 100) by (unfold x; qmm; lra).
    destruct (en_zone_avg_ok b s x 100 W Hcs Hs X0 X1 ltac:(lra)) as [a' [E4 H4]]. rewrite Ea in E4. injection E4 as <-.
    pose proof (en_w_pos b A2 Hcs) as Hw. pose proof (en_w_eq b A2) as Ew.
    destruct (ramp_squeezes (en_cold b) (en_storage b) (en_slope b) (- s) (en_w b) x 100 A2 ltac:(lra) ltac:(lra) x 100) as [_ S2]; try lra.
    rewrite <- H4, <- TT in S2. apply Qmult_le_r in S2; lra. }
  assert (Z0 : 0 <= g * rho_cp) by (apply qmul_nonneg; lra).
  assert (M0 : 0 <= qmax 0 (a - c)) by apply qmax_l.
  assert (M1 : qmax 0 (a - c) <= top - c) by (qmm; lra).
  assert (R1 : 0 <= g * rho_cp * qmax 0 (a - c)) by (apply qmul_nonneg; lra).
  assert (R2 : g * rho_cp * qmax 0 (a - c) <= g * rho_cp * (top - c)).
  { rewrite (Qmult_comm (g * rho_cp)), (Qmult_comm (g * rho_cp) (top - c)). apply Qmult_le_compat_r; lra. }
  assert (Y : rho_cp * g * (top - c) == g * rho_cp * (top - c)) by ring. rewrite Y.
  generalize dependent (g * rho_cp * qmax 0 (a - c)). intros r _ R1 R2. fold b in E. split; qmm; lra.
Qed.

(** Starting or ending the slug, or leaving it. *)
Lemma held_lifecycle lo h was now sup t : sl_inv lo h t ->
  (sl_active t = false -> en_energy (sl_base t) <= en_full (sl_base t)) ->
  (sl_active t = true -> en_cold (sl_base t) <= sl_temp t) ->
  exists t1 e e1, held t e /\ (if (now : bool) then sl_activate t sup else if (was : bool) then sl_deactivate t else Ok t) = Ok t1 /\
    held t1 e1 /\ Qabs (e1 - e) <= en_tol (sl_base t) /\
    (sl_active t1 = true -> sl_base t1 = sl_base t /\ en_cold (sl_base t1) <= sl_temp t1).
Proof.
  intros I Hf Ht.
  pose proof (sl_inv_wf _ _ _ I) as W. pose proof I as [_ [_ [_ [[D1 [D2 D3]] [E0 F]]]]].
  assert (Hcs : en_cold (sl_base t) < en_storage (sl_base t)) by lra.
  pose proof (en_tol_nonneg (sl_base t) W Hcs) as TN.
  assert (Z : forall x, Qabs (x - x) <= en_tol (sl_base t)).
  { intro x. assert (Y : x - x == 0) by ring. rewrite Y. exact TN. }
  destruct (sl_deactivate_inv lo h t I) as (td & Ed & Id & Gd & Ad).
  assert (HD : held t (en_energy (sl_base td))) by (exists td; split; [exact Ed|reflexivity]).
  destruct now; [|destruct was].
  - destruct (sl_active t) eqn:Ha.
    + rewrite (sl_activate_active t sup Ha). exists t, (en_energy (sl_base td)), (en_energy (sl_base td)).
      split; [exact HD|]. split; [reflexivity|]. split; [exact HD|]. split; [apply Z|]. intros _. split; [reflexivity|auto].
    + destruct (cyc_activate lo h t sup I Ha (Hf eq_refl)) as [s [t1 [Hs [E1 [S3 [B1 [B2 [B3 [B4 [B5 [B6 [B7 [B8 [B9 B10]]]]]]]]]]]]]].
      destruct (sl_activate_inv lo h t sup I) as (t1' & E1' & I1 & _). rewrite E1 in E1'. injection E1' as <-.
      destruct (held_active lo h t1 s I1 B2) as [e1 [H1 X1]]; [rewrite B1; exact B9|rewrite B1; exact Hs|].
      exists t1, (en_energy (sl_base t)), e1. split; [apply held_inactive; exact Ha|]. split; [exact E1|]. split; [exact H1|].
      split; [|intros _; split; [exact B1|rewrite B1; exact B9]].
      eapply Qle_trans; [|exact S3]. apply Qle_lteq. right. apply Qabs_wd. rewrite X1. unfold act_heat. rewrite B1, B10.
      pose proof I as [[A1 _] [B [C _]]].
      assert (Y1 : zy t1 == 100) by (unfold zy; rewrite B5, B1; field; lra).
      assert (Y2 : zx t1 == en_cold_pct (sl_base t) + sl_vol t1 / en_vol (sl_base t) * 100) by (unfold zx; rewrite B4, B5, B1, B; ring).
      rewrite (P0_wd (sl_base t) s _ _ Y1), (P0_wd (sl_base t) s _ _ Y2).
      assert (Ee : en_e (sl_base t) s == rho_cp * en_vol (sl_base t) / 100 * (P0 (sl_base t) s 100 - P0 (sl_base t) s (en_cold_pct (sl_base t)))) by reflexivity.
      rewrite Ee. field.
  - exists td, (en_energy (sl_base td)), (en_energy (sl_base td)). split; [exact HD|]. split; [exact Ed|].
    split; [apply held_inactive; exact Ad|]. split; [apply Z|]. rewrite Ad. discriminate.
  - exists t, (en_energy (sl_base td)), (en_energy (sl_base td)). split; [exact HD|]. split; [reflexivity|]. split; [exact HD|]. split; [apply Z|].
    intros Ha. split; [reflexivity|auto].
Qed.
