(** Heat balance of one heating cycle of the slug overlay. *)
From Verif Require Import Prelude S_Integral L_Integral L_Ramp M_StratifiedTank M_EnergyTank S_EnergyTank L_EnergyTank L_Slug S_SlugCycle.
From Coq Require Import Permutation.
Open Scope Q_scope.

Definition P0 (b : entank) (s x : Q) : Q := ramp_F 0 (en_slope b) (- s) (en_w b) x.

Lemma P0_wd b s x y : x == y -> P0 b s x == P0 b s y.
Proof. intros E. unfold P0. rewrite E. reflexivity. Qed.

(** Activation: the slug holds the water below [xs] at its mean temperature. *)
Lemma cyc_activate lo h t sup : sl_inv lo h t -> sl_active t = false ->
  en_energy (sl_base t) <= en_full (sl_base t) ->
  exists s t1, en_shift (sl_base t) = Ok s /\ sl_activate t sup = Ok t1 /\
    Qabs (en_e (sl_base t) s - en_energy (sl_base t)) <= en_tol (sl_base t) /\
    sl_base t1 = sl_base t /\ sl_active t1 = true /\ sl_max t1 = sl_max t /\ sl_pu t1 = sl_pu t /\
    sl_orig t1 = sl_vol t1 /\ 0 <= sl_vol t1 /\ sl_vol t1 <= sl_max t /\
    sl_top t1 == en_cold_pct (sl_base t) + sl_vol t1 / en_vol (sl_base t) * 100 /\
    en_cold (sl_base t) <= sl_temp t1 /\
    sl_vol t1 * (sl_temp t1 - en_cold (sl_base t)) ==
      en_vol (sl_base t) / 100 * (P0 (sl_base t) s (en_cold_pct (sl_base t) + sl_vol t1 / en_vol (sl_base t) * 100) - P0 (sl_base t) s (en_cold_pct (sl_base t))).
Proof.
  intros I Ha Hfull. pose proof (sl_inv_wf _ _ _ I) as W. pose proof I as [[A1 [A2 [A3 A4]]] [B [C [[D1 [D2 D3]] [E F]]]]].
  unfold sl_activate; cbv zeta. rewrite Ha. set (b := sl_base t) in *.
  assert (Hc : en_cold b < en_storage b) by lra.
  destruct (en_shift_ok b W Hc) as [s [Hs [S1 [S2 S3]]]]. exists s. rewrite Hs. cbn [bind]. rewrite qdiv_ok by lra. cbn [bind].
  set (xs := qmax (en_cold_pct b) _).
  assert (X1 : en_cold_pct b <= xs) by apply qmax_l.
  assert (X2 : xs <= 100) by (unfold xs; apply qmax_lub; [lra|apply qmin_l]). clearbody xs.
  set (V := en_vol b) in *.
  set (v0 := (xs - en_cold_pct b) / 100 * V).
  assert (V0 : 0 <= v0).
  { unfold v0. apply qmul_nonneg; [apply qdiv_nonneg; lra|lra]. }
  set (v := qmax 0 v0). assert (Ev : v == v0) by (unfold v; qmm; lra).
  assert (Etop : en_cold_pct b + v / V * 100 == xs).
  { rewrite Ev. unfold v0. field. lra. }
  assert (Vm : v <= sl_max t).
  { rewrite Ev, C. unfold v0. assert (Z : (xs - en_cold_pct b) / 100 <= sl_pu t) by (apply qdiv_le_iff; lra).
    apply Qmult_le_r with (z := V) in Z; [|lra]. exact Z. }
  assert (T : exists a, (if qltb 0 v then en_zone_avg b (en_cold_pct b) xs else Ok (en_cold b)) = Ok a
             /\ en_cold b <= a /\ v * (a - en_cold b) == V / 100 * (P0 b s xs - P0 b s (en_cold_pct b))).
  { destruct (qltb 0 v) eqn:Qv; qbool.
    - assert (Hx : en_cold_pct b < xs).
      { destruct (Qlt_le_dec (en_cold_pct b) xs) as [Z|Z]; [exact Z|]. exfalso.
        assert (Z2 : xs - en_cold_pct b == 0) by lra. unfold v0 in Ev. rewrite Z2 in Ev.
        assert (0 / 100 * V == 0) by field. lra. }
      destruct (en_zone_avg_ok b s (en_cold_pct b) xs W Hc Hs) as [a [Eaa Haa]]; try lra.
      exists a. split; [exact Eaa|]. split; [apply (en_zone_avg_between b (en_cold_pct b) xs a W Hc ltac:(lra) X2 Eaa)|].
      rewrite !(ramp_F_split (en_cold b)) in Haa. fold (P0 b s xs) (P0 b s (en_cold_pct b)) in Haa.
      assert (Y : (xs - en_cold_pct b) * (a - en_cold b) == P0 b s xs - P0 b s (en_cold_pct b)) by lra.
      rewrite Ev. unfold v0. rewrite <- Y. field.
    - exists (en_cold b). split; [reflexivity|]. split; [lra|].
      assert (Hx : xs == en_cold_pct b).
      { destruct (Qlt_le_dec (en_cold_pct b) xs) as [Z|Z]; [|lra]. exfalso.
        assert (0 < v0); [|lra]. unfold v0. apply qmul_pos; [apply qdiv_pos; lra|lra]. }
      rewrite (P0_wd b s _ _ Hx). field. }
  destruct T as [a [Et [Ha1 Ha2]]]. rewrite Et. cbn [bind]. rewrite sl_top_of_ok by assumption. cbn [bind].
  eexists. split; [reflexivity|]. split; [reflexivity|]. cbn [sl_base sl_active sl_max sl_pu sl_orig sl_vol sl_top sl_temp].
  assert (EC : en_clamped b == en_energy b).
  { rewrite <- en_max_full in Hfull. unfold en_clamped. qmm; lra. }
  rewrite EC in S3. split; [exact S3|].
  repeat (split; [reflexivity|]). split; [lra|]. split; [exact Vm|]. split; [reflexivity|]. split; [exact Ha1|].
  fold V. rewrite (P0_wd b s _ _ Etop). exact Ha2.
Qed.

(** A draw that fits above the slug. *)
Lemma cyc_draw t g c u : 0 < en_vol (sl_base t) -> sl_active t = true -> 0 <= sl_vol t -> 0 < g -> g <= sl_max t - sl_vol t ->
  exists t', sl_draw_physical t g c u = Ok t' /\ sl_base t' = sl_base t /\ sl_active t' = true /\ sl_max t' = sl_max t /\
    sl_orig t' = sl_orig t /\ sl_pu t' = sl_pu t /\ sl_vol t' == sl_vol t + g /\
    sl_vol t' * sl_temp t' == sl_vol t * sl_temp t + g * c /\
    sl_top t' == en_cold_pct (sl_base t) + sl_vol t' / en_vol (sl_base t) * 100.
Proof.
  intros HV Ha Hv Hg Hf. unfold sl_draw_physical; cbv zeta. rewrite Ha. cbn [negb].
  set (av := qmax 0 (sl_max t - sl_vol t)).
  assert (Eav : av == sl_max t - sl_vol t) by (unfold av; qmm; lra).
  destruct (qltb av g) eqn:Eo; qbool; [lra|].
  match goal with |- context [sl_add ?x g c] => set (t1 := x) end.
  destruct (sl_add_ok t1 g c) as [t' [E1 [G1 [G2 [G3 [G4 [G5 [_ [G6 [G7 G8]]]]]]]]]]; cbn; try lra; auto.
  rewrite E1. cbn [bind]. exists t'. split; [reflexivity|]. cbn in G1, G3, G4, G5, G6, G7, G8. repeat split; auto.
Qed.

Lemma cyc_heat t k d : sl_active t = true -> 0 < sl_vol t -> 0 <= k ->
  exists t', sl_heat t k d = Ok t' /\ sl_base t' = sl_base t /\ sl_active t' = true /\ sl_max t' = sl_max t /\
    sl_orig t' = sl_orig t /\ sl_pu t' = sl_pu t /\ sl_vol t' = sl_vol t /\ sl_top t' = sl_top t /\
    sl_vol t * rho_cp * (sl_temp t' - sl_temp t) == k * 1000 * d / 60.
Proof.
  intros Ha Hv Hk. unfold sl_heat. rewrite Ha. cbn [negb orb].
  destruct (Qle_bool (sl_vol t) 0) eqn:E; qbool; [lra|]. cbn [orb].
  destruct (Qle_bool k 0) eqn:E2; qbool.
  - exists t. assert (Z : k == 0) by lra. repeat split; auto. rewrite Z. field.
  - assert (0 < sl_vol t * rho_cp) by (apply qmul_pos; [assumption|apply en_rho_pos]).
    rewrite qdiv_ok by lra. cbn [bind]. eexists. split; [reflexivity|]. cbn. repeat split; auto.
    pose proof en_rho_pos. field. split; lra.
Qed.

(** The calls made while the overlay is active. *)
Lemma cyc_run cold h ops : forall t, 0 < en_vol (sl_base t) -> sl_active t = true -> 0 < sl_vol t ->
  sl_top t == en_cold_pct (sl_base t) + sl_vol t / en_vol (sl_base t) * 100 -> cold <= sl_temp t ->
  Forall (cycle_call cold h) ops -> drawn_gal ops <= sl_max t - sl_vol t ->
  exists t', sl_run t ops = Ok t' /\ sl_base t' = sl_base t /\ sl_active t' = true /\ sl_max t' = sl_max t /\
    sl_orig t' = sl_orig t /\ sl_pu t' = sl_pu t /\ sl_vol t' == sl_vol t + drawn_gal ops /\
    rho_cp * (sl_vol t' * sl_temp t') == rho_cp * (sl_vol t * sl_temp t) + rho_cp * entered_gal_f ops + heated_btu ops /\
    sl_top t' == en_cold_pct (sl_base t) + sl_vol t' / en_vol (sl_base t) * 100 /\ cold <= sl_temp t'.
Proof.
  assert (ND : forall l, Forall (cycle_call cold h) l -> 0 <= drawn_gal l).
  { induction 1 as [|o l H _ IH]; cbn; [lra|]. destruct o; cbn in H; try tauto; lra. }
  assert (Hr : 0 < rho_cp) by apply en_rho_pos.
  induction ops as [|o ops IH]; intros t HV Ha Hv Ht Hc HF Hd.
  - exists t. cbn. repeat split; auto; try lra.
  - inversion HF as [|? ? Ho Hos]; subst. pose proof (ND _ Hos) as N.
    destruct o as [st c pu|s|g c|k d| |g c u| | | | ]; cbn [cycle_call] in Ho; try tauto; cbn [drawn_gal entered_gal_f heated_btu sl_run sl_step] in *.
    + destruct Ho as [K0 D0]. destruct (cyc_heat t k d Ha Hv K0) as [t1 [E1 [B1 [B2 [B3 [B4 [B5 [B6 [B7 B8]]]]]]]]].
      rewrite E1. cbn [bind].
      assert (Hq : 0 <= k * 1000 * d / 60) by (apply qdiv_nonneg; [apply qmul_nonneg; [apply qmul_nonneg; lra|lra]|lra]).
      destruct (IH t1) as [t2 [E2 [C1 [C2 [C3 [C4 [C5 [C6 [C7 [C8 C9]]]]]]]]]]; rewrite ?B1, ?B3, ?B6, ?B7; auto.
      { rewrite <- B8 in Hq. assert (0 < sl_vol t * rho_cp) by (apply qmul_pos; lra).
        assert (0 <= sl_temp t1 - sl_temp t); [|lra].
        destruct (Qlt_le_dec (sl_temp t1 - sl_temp t) 0) as [Z|Z]; [|exact Z]. exfalso.
        assert (sl_vol t * rho_cp * (sl_temp t1 - sl_temp t) < 0); [|lra].
        assert (0 < sl_vol t * rho_cp * (sl_temp t - sl_temp t1)) by (apply qmul_pos; lra). lra. }
      exists t2. split; [exact E2|]. rewrite C1, B1, C3, B3, C4, B4, C5, B5. repeat split; auto.
      * rewrite C6, B6. reflexivity.
      * rewrite C7, B6. assert (Y : k * 1000 * (d / 60) == k * 1000 * d / 60) by field. rewrite Y, <- B8. ring.
      * rewrite C8, B1. reflexivity.
    + destruct Ho as [G0 [G1 G2]].
      destruct (cyc_draw t g c u HV Ha ltac:(lra) G0 ltac:(lra)) as [t1 [E1 [B1 [B2 [B3 [B4 [B5 [B6 [B7 B8]]]]]]]]].
      rewrite E1. cbn [bind].
      destruct (IH t1) as [t2 [E2 [C1 [C2 [C3 [C4 [C5 [C6 [C7 [C8 C9]]]]]]]]]]; rewrite ?B1, ?B3; auto; try lra.
      { assert (0 <= sl_vol t * (sl_temp t - cold)) by (apply qmul_nonneg; lra).
        assert (0 <= g * (c - cold)) by (apply qmul_nonneg; lra).
        assert (Y : sl_vol t1 * (sl_temp t1 - cold) == sl_vol t * (sl_temp t - cold) + g * (c - cold)).
        { assert (Z : sl_vol t1 * (sl_temp t1 - cold) == sl_vol t1 * sl_temp t1 - sl_vol t1 * cold) by ring.
          rewrite Z, B7, B6. ring. }
        destruct (Qlt_le_dec (sl_temp t1) cold) as [Z|Z]; [|exact Z]. exfalso.
        assert (0 < sl_vol t1 * (cold - sl_temp t1)) by (apply qmul_pos; lra). lra. }
      exists t2. split; [exact E2|]. rewrite C1, B1, C3, B3, C4, B4, C5, B5. repeat split; auto.
      * rewrite C6, B6. ring.
      * rewrite C7, B7. ring.
      * rewrite C8, B1. reflexivity.
Qed.

Lemma sl_run_app a b t : sl_run t (a ++ b) = do t' <- sl_run t a; sl_run t' b.
Proof. revert t. induction a as [|o a IH]; intros t; cbn; [reflexivity|]. destruct (sl_step t o); cbn; [apply IH|reflexivity]. Qed.

(** The whole cycle. *)
Lemma cyc_exact lo h t T sup ops t1 :
  sl_reachable lo h t -> sl_active t = false -> en_energy (sl_base t) <= en_full (sl_base t) ->
  en_profile (sl_base t) T -> sl_activate t sup = Ok t1 -> 0 < sl_vol t1 ->
  Forall (cycle_call (en_cold (sl_base t)) h) ops -> drawn_gal ops <= sl_max t1 - sl_vol t1 ->
  exists s t' I, en_shift (sl_base t) = Ok s /\ sl_run t (LActivate sup :: ops ++ [LDeactivate]) = Ok t' /\ sl_active t' = false /\
    Qabs (en_e (sl_base t) s - en_energy (sl_base t)) <= en_tol (sl_base t) /\
    is_integral T (1 - drawn_gal ops / en_vol (sl_base t)) 1 I /\
    en_vol (sl_base t) * I == en_cold (sl_base t) * drawn_gal ops + en_vol (sl_base t) / 100 * (P0 (sl_base t) s 100 - P0 (sl_base t) s ((1 - drawn_gal ops / en_vol (sl_base t)) * 100)) /\
    en_energy (sl_base t') ==
      en_e (sl_base t) s + heated_btu ops + rho_cp * entered_gal_f ops - rho_cp * (en_vol (sl_base t) * I).
Proof.
  intros R Ha Hfull HT Hact Hv HF Hd. pose proof (sl_reachable_inv _ _ _ R) as Iv.
  assert (ND : 0 <= drawn_gal ops).
  { clear Hd. induction HF as [|o l H _ IH]; cbn; [lra|]. destruct o; cbn in H; try tauto; lra. }
  destruct (cyc_activate lo h t sup Iv Ha Hfull) as [s [t1' [Hs [E1 [S3 [B1 [B2 [B3 [B4 [B5 [B6 [B7 [B8 [B9 B10]]]]]]]]]]]]]].
  rewrite Hact in E1. injection E1 as <-.
  pose proof (sl_inv_wf _ _ _ Iv) as W. pose proof Iv as [[A1 [A2 [A3 A4]]] [B [C [[D1 [D2 D3]] [E F]]]]].
  assert (Hc : en_cold (sl_base t) < en_storage (sl_base t)) by lra.
  assert (Hr : 0 < rho_cp) by apply en_rho_pos.
  set (b := sl_base t) in *. set (V := en_vol b) in *.
  destruct (cyc_run (en_cold b) h ops t1) as [t2 [E2 [C1 [C2 [C3 [C4 [C5 [C6 [C7 [C8 C9]]]]]]]]]]; rewrite ?B1; auto.
  rewrite B1 in *. fold V in C8. set (D := drawn_gal ops) in *.
  cbn [sl_run sl_step]. rewrite Hact. cbn [bind]. rewrite sl_run_app, E2. cbn [bind sl_run sl_step].
  assert (HDV : D / V <= sl_pu t) by (rewrite B3 in Hd; apply qdiv_le_iff; lra).
  pose proof (en_profile_prof b s T Hs HT) as HP.
  pose proof (integral_of_antiderivative T _ (1 - D / V) 1
    (en_prof_squeezes_abs b s (1 - D / V) 1 T W Hc HP ltac:(rewrite B; lra))) as HI.
  cbv beta in HI. match type of HI with is_integral _ _ _ ?x => set (I := x) in * end.
  set (yt := (1 - D / V) * 100) in *.
  assert (EI : 100 * I == en_cold b * (D / V * 100) + (P0 b s 100 - P0 b s yt)).
  { unfold I. rewrite !(ramp_F_split (en_cold b)). fold (P0 b s (1 * 100)) (P0 b s yt).
    rewrite (P0_wd b s (1 * 100) 100 ltac:(reflexivity)). unfold yt. ring. }
  assert (EDV : V * (D / V) == D) by (field; lra).
  assert (EVI : V * I == en_cold b * D + V / 100 * (P0 b s 100 - P0 b s yt)).
  { assert (Z : V * I == V * (100 * I) / 100) by field. rewrite Z, EI.
    assert (Z2 : V * (en_cold b * (D / V * 100) + (P0 b s 100 - P0 b s yt)) / 100 == en_cold b * (V * (D / V)) + V / 100 * (P0 b s 100 - P0 b s yt)) by (field; lra).
    rewrite Z2, EDV. reflexivity. }
  clearbody I.
  assert (Ee : en_e b s == rho_cp * V / 100 * (P0 b s 100 - P0 b s (en_cold_pct b))) by reflexivity.
  set (xs := en_cold_pct b + sl_vol t1 / V * 100) in *.
  assert (SH : sl_vol t2 * rho_cp * (sl_temp t2 - en_cold b) ==
     rho_cp * (V / 100 * (P0 b s xs - P0 b s (en_cold_pct b))) + rho_cp * entered_gal_f ops + heated_btu ops - rho_cp * (en_cold b * D)).
  { rewrite <- B10.
    assert (Z : sl_vol t2 * rho_cp * (sl_temp t2 - en_cold b) == rho_cp * (sl_vol t2 * sl_temp t2) - rho_cp * (sl_vol t2 * en_cold b)) by ring.
    rewrite Z, C7, C6. ring. }
  assert (SHp : 0 <= sl_vol t2 * rho_cp * (sl_temp t2 - en_cold b)).
  { apply qmul_nonneg; [apply qmul_nonneg; lra|lra]. }
  assert (Eb : forall x, 0 <= x -> qmax 0 x == x) by (intros; qmm; lra).
  unfold sl_deactivate; cbv zeta. rewrite C2, C1. cbn [negb]. fold V.
  assert (Emx : sl_max t2 - sl_vol t2 == (yt - xs) / 100 * V).
  { rewrite C3, B3, C, C6. fold V. unfold yt, xs. rewrite B. field. lra. }
  assert (Hm2 : 0 <= sl_max t2 - sl_vol t2) by (rewrite C3, C6; lra).
  assert (Hyx : xs <= yt).
  { destruct (Qlt_le_dec yt xs) as [Z|Z]; [|exact Z]. exfalso.
    assert (0 < (xs - yt) / 100 * V) by (apply qmul_pos; [apply qdiv_pos; lra|lra]).
    assert (Z2 : (yt - xs) / 100 * V == - ((xs - yt) / 100 * V)) by field. lra. }
  assert (Htop2 : sl_top t2 == 100 - (yt - xs)).
  { rewrite C8, C6. unfold xs, yt. field. lra. }
  assert (DVp : 0 <= D / V) by (apply qdiv_nonneg; lra).
  assert (Hyt : yt <= 100) by (unfold yt; lra).
  destruct (Qle_bool 100 (sl_top t2)) eqn:Q100; qbool.
  - cbn [bind]. exists s. eexists. exists I. split; [exact Hs|]. split; [reflexivity|]. split; [reflexivity|]. split; [exact S3|]. split; [exact HI|]. split; [exact EVI|].
    cbn [sl_base en_energy en_set_energy]. 
    rewrite (Eb _ SHp), SH, EVI, Ee.
    assert (Hx : yt == xs) by lra. rewrite (P0_wd b s _ _ Hx). field.
  - rewrite qdiv_ok by lra. cbn [bind]. rewrite C4, B5.
    set (gq := (sl_vol t2 - sl_vol t1) / V). assert (Hgq : gq == D / V).
    { unfold gq. rewrite C6. field. lra. }
    set (hi := 100 - gq * 100). assert (Hhi : hi == yt) by (unfold hi, yt; rewrite Hgq; ring).
    set (lo' := hi - (100 - sl_top t2)).
    assert (Hlo : lo' == xs) by (unfold lo'; rewrite Hhi, Htop2; ring).
    assert (Hxs0 : en_cold_pct b <= xs).
    { unfold xs. assert (0 <= sl_vol t1 / V) by (apply qdiv_nonneg; lra). lra. }
    destruct (en_zone_avg_ok b s lo' hi W Hc Hs) as [a2 [Ea2 Haa2]]; try lra.
    rewrite Ea2. cbn [bind]. exists s. eexists. exists I. split; [exact Hs|]. split; [reflexivity|]. split; [reflexivity|]. split; [exact S3|]. split; [exact HI|]. split; [exact EVI|].
    cbn [sl_base en_energy en_set_energy]. 
    destruct (en_zone_avg_between b lo' hi a2 W Hc ltac:(lra) ltac:(lra) Ea2) as [Q1 _].
    rewrite Hlo, Hhi in Haa2. rewrite !(ramp_F_split (en_cold b)) in Haa2. fold (P0 b s yt) (P0 b s xs) in Haa2.
    assert (Y : (yt - xs) * (a2 - en_cold b) == P0 b s yt - P0 b s xs) by lra.
    assert (Hpos : 0 <= (yt - xs) / 100 * V) by (apply qmul_nonneg; [apply qdiv_nonneg; lra|lra]).
    assert (H2 : qmax 0 (sl_max t2 - sl_vol t2) * rho_cp * (a2 - en_cold b) == rho_cp * V / 100 * (P0 b s yt - P0 b s xs)).
    { rewrite (Eb (sl_max t2 - sl_vol t2)) by lra. rewrite Emx, <- Y. field. }
    assert (H2p : 0 <= qmax 0 (sl_max t2 - sl_vol t2) * rho_cp * (a2 - en_cold b)).
    { apply qmul_nonneg; [apply qmul_nonneg; [apply qmax_l|lra]|lra]. }
    rewrite (Eb _ SHp), (Eb _ H2p), SH, H2, EVI, Ee. field.
Qed.

Lemma cyc_balance lo h t T sup ops t1 :
  sl_reachable lo h t -> sl_active t = false -> en_energy (sl_base t) <= en_full (sl_base t) ->
  en_profile (sl_base t) T -> sl_activate t sup = Ok t1 -> 0 < sl_vol t1 ->
  Forall (cycle_call (en_cold (sl_base t)) h) ops -> drawn_gal ops <= sl_max t1 - sl_vol t1 ->
  exists t' I, sl_run t (LActivate sup :: ops ++ [LDeactivate]) = Ok t' /\ sl_active t' = false /\
    is_integral T (1 - drawn_gal ops / en_vol (sl_base t)) 1 I /\
    Qabs (en_energy (sl_base t') -
      (en_energy (sl_base t) + heated_btu ops + rho_cp * entered_gal_f ops - rho_cp * (en_vol (sl_base t) * I)))
      <= en_tol (sl_base t).
Proof.
  intros R Ha Hfull HT Hact Hv HF Hd.
  destruct (cyc_exact lo h t T sup ops t1 R Ha Hfull HT Hact Hv HF Hd) as [s [t' [I [Hs [E [A [S3 [HI [_ X]]]]]]]]].
  exists t', I. split; [exact E|]. split; [exact A|]. split; [exact HI|].
  eapply Qle_trans; [|exact S3]. apply Qle_lteq. right. apply Qabs_wd. rewrite X. ring.
Qed.

(** Reordering a cycle's calls. *)
Lemma drawn_perm a b : Permutation a b -> drawn_gal a == drawn_gal b.
Proof.
  induction 1 as [|o a b _ IH|o p a|a b c _ IH1 _ IH2]; [reflexivity| | |lra].
  - destruct o; cbn; lra.
  - destruct o; destruct p; cbn; lra.
Qed.
Lemma entered_perm a b : Permutation a b -> entered_gal_f a == entered_gal_f b.
Proof.
  induction 1 as [|o a b _ IH|o p a|a b c _ IH1 _ IH2]; [reflexivity| | |lra].
  - destruct o; cbn; lra.
  - destruct o; destruct p; cbn; lra.
Qed.
Lemma heated_perm a b : Permutation a b -> heated_btu a == heated_btu b.
Proof.
  induction 1 as [|o a b _ IH|o p a|a b c _ IH1 _ IH2]; [reflexivity| | |lra].
  - destruct o; cbn; lra.
  - destruct o; destruct p; cbn; lra.
Qed.


Lemma cyc_order lo h t T sup ops1 ops2 t1 :
  sl_reachable lo h t -> sl_active t = false -> en_energy (sl_base t) <= en_full (sl_base t) ->
  en_profile (sl_base t) T -> sl_activate t sup = Ok t1 -> 0 < sl_vol t1 ->
  Permutation ops1 ops2 ->
  Forall (cycle_call (en_cold (sl_base t)) h) ops1 -> drawn_gal ops1 <= sl_max t1 - sl_vol t1 ->
  exists a b, sl_run t (LActivate sup :: ops1 ++ [LDeactivate]) = Ok a /\
    sl_run t (LActivate sup :: ops2 ++ [LDeactivate]) = Ok b /\
    en_energy (sl_base a) == en_energy (sl_base b).
Proof.
  intros R Ha Hfull HT Hact Hv HPm HF Hd.
  assert (HF2 : Forall (cycle_call (en_cold (sl_base t)) h) ops2) by (eapply Permutation_Forall; eauto).
  pose proof (drawn_perm _ _ HPm) as Ed. pose proof (entered_perm _ _ HPm) as Ee. pose proof (heated_perm _ _ HPm) as Eh.
  destruct (cyc_exact lo h t T sup ops1 t1 R Ha Hfull HT Hact Hv HF Hd) as [s [a [I [Hs [E [A [S3 [HI [V1 X]]]]]]]]].
  destruct (cyc_exact lo h t T sup ops2 t1 R Ha Hfull HT Hact Hv HF2 ltac:(lra)) as [s' [a' [I' [Hs' [E' [A' [S3' [HI' [V2 X']]]]]]]]].
  rewrite Hs in Hs'. injection Hs' as <-.
  exists a, a'. split; [exact E|]. split; [exact E'|]. rewrite X, X', V1, V2, Ee, Eh.
  assert (Y : (1 - drawn_gal ops1 / en_vol (sl_base t)) * 100 == (1 - drawn_gal ops2 / en_vol (sl_base t)) * 100) by (rewrite Ed; reflexivity).
  rewrite (P0_wd (sl_base t) s _ _ Y), Ed. reflexivity.
Qed.
