(** The fully hot part of a stratified tank: how heating, drawing and recirculation change it. *)
From Verif Require Import Prelude M_StratifiedTank S_StratifiedTank L_StratifiedTank L_StratifiedTank2 L_StratifiedTank3 L_Ramp
  M_Building L_Building M_Heater S_Heater L_Heater M_SimRun S_SimRun M_Step S_Step L_Step L_Step2 L_Step3 L_Step4 M_Engine S_Engine S_Lasts.
Open Scope Q_scope.

(** Gallons at temperature [h] at the top of the tank, negative when its top is cooler. *)
Definition hot (t : strat) (h : Q) : Q := st_delta t - floor_delta t h.

Lemma hot_line t h : st_wf t -> st_slope t * (hot t h / st_vol t * 100) == st_slope t * (st_delta t / st_vol t * 100) + st_inter t + st_slope t * 100 - h.
Proof. intros [V L]. unfold hot, floor_delta. field. split; lra. Qed.

(** What the sensor at height [a] reads, below [T] or not. *)
Lemma temp_hot t h a T : st_wf t -> st_outlet t = h -> st_inlet t < T -> T <= h ->
  (tval t a < T <-> hot t h < hot_reserve (st_vol t) (st_slope t) h a T).
Proof.
  intros W E I H. pose proof (hot_line t h W) as HL. destruct W as [V L]. unfold tval, hot_reserve. rewrite E.
  set (y := hot t h) in *. set (w := y / st_vol t) in *.
  assert (Ey : y == st_vol t * w) by (unfold w; field; lra).
  set (q := (h - T) / (100 * st_slope t)). assert (Eq : h - T == 100 * st_slope t * q) by (unfold q; field; lra).
  set (x := st_slope t * (a * 100 + st_delta t / st_vol t * 100) + st_inter t).
  assert (Ex : x == h - 100 * st_slope t * (1 - a - w)).
  { unfold x. setoid_replace (st_slope t * (a * 100 + st_delta t / st_vol t * 100) + st_inter t)
      with (st_slope t * (a * 100) + (st_slope t * (st_delta t / st_vol t * 100) + st_inter t)) by ring.
    assert (E2 : st_slope t * (st_delta t / st_vol t * 100) + st_inter t == st_slope t * (w * 100) - st_slope t * 100 + h) by lra. rewrite E2. ring. }
  assert (A : x < T <-> y < st_vol t * (1 - a - q)).
  { rewrite Ex, Ey. split; intro X.
    - apply Qmult_lt_l; [exact V|]. assert (100 * st_slope t * q < 100 * st_slope t * (1 - a - w)) by lra.
      assert (P : 0 < 100 * st_slope t) by lra. apply Qmult_lt_l in H0; [|exact P]. lra.
    - apply Qmult_lt_l in X; [|exact V]. assert (P : 0 < 100 * st_slope t) by lra.
      assert (Z : q < 1 - a - w) by lra. apply (Qmult_lt_l _ _ _ P) in Z. lra. }
  rewrite <- A. fold x. split; intro X; [|qmm; lra]. revert X. qmm; lra.
Qed.

(** Usable volume and top temperature while the top is hot. *)
Lemma usable_hot t h s u : st_wf t -> 0 <= hot t h <= st_vol t -> s <= h -> st_usable t s = Ok u ->
  u == qmin (st_vol t) (hot t h + st_vol t * (h - s) / (100 * st_slope t)).
Proof.
  intros W [H1 H2] S U. pose proof (hot_line t h W) as HL. destruct W as [V L]. unfold st_usable in U. rewrite !qdiv_ok in U by lra. cbn [bind] in U. apply ok_inj in U.
  rewrite <- U. set (y := hot t h) in *. set (x := (s - st_inter t) / st_slope t - st_delta t / st_vol t * 100).
  assert (Ex : x == 100 - 100 * (y + st_vol t * (h - s) / (100 * st_slope t)) / st_vol t).
  { unfold x, y, hot, floor_delta. field. split; lra. }
  set (z := y + st_vol t * (h - s) / (100 * st_slope t)) in *.
  assert (Z0 : 0 <= z). { unfold z. assert (0 <= st_vol t * (h - s) / (100 * st_slope t)) by (apply qdiv_nonneg; nra). lra. }
  set (w := z / st_vol t). assert (Ez : z == st_vol t * w) by (unfold w; field; lra).
  assert (Ex' : x == 100 - 100 * w) by (rewrite Ex; unfold w; field; lra).
  assert (W0 : 0 <= w) by (unfold w; apply qdiv_nonneg; assumption). rewrite Ez.
  assert (K : qmax 0 (qmin 100 x) == 100 - 100 * qmin 1 w) by (rewrite Ex'; qmm; lra). rewrite K.
  assert (M : qmin (st_vol t) (st_vol t * w) == st_vol t * qmin 1 w).
  { destruct (Qlt_le_dec w 1); [assert (st_vol t * w < st_vol t * 1) by (apply Qmult_lt_l; assumption)|assert (st_vol t * 1 <= st_vol t * w) by (apply Qmult_le_l; assumption)]; qmm; lra. }
  rewrite M. field.
Qed.

Lemma top_hot t h : st_wf t -> st_outlet t = h -> st_inlet t <= h -> 0 <= hot t h -> tval t 1 == h.
Proof.
  intros W E I H. pose proof (hot_line t h W) as HL. destruct W as [V L]. unfold tval. rewrite E.
  assert (0 <= st_slope t * (hot t h / st_vol t * 100)).
  { assert (0 <= hot t h / st_vol t) by (apply qdiv_nonneg; assumption). nra. }
  set (x := st_slope t * (1 * 100 + st_delta t / st_vol t * 100) + st_inter t).
  assert (h <= x).
  { unfold x. setoid_replace (st_slope t * (1 * 100 + st_delta t / st_vol t * 100) + st_inter t)
      with (st_slope t * (st_delta t / st_vol t * 100) + st_inter t + st_slope t * 100) by ring. lra. }
  qmm; lra.
Qed.

Lemma rho_nz : ~ rho_cp == 0. Proof. discriminate. Qed.

(** Heating. *)
Lemma heat_hot t k d h : st_wf t -> st_inlet t < h ->
  exists t', st_heat t k d h = Ok t' /\ st_vol t' = st_vol t /\ st_slope t' = st_slope t /\ st_inlet t' = st_inlet t /\ st_outlet t' = h /\
    (k <= 0 -> hot t' h == hot t h) /\
    (0 < k -> hot t' h == qmin (hot t h + k * 1000 * d / 60 / (rho_cp * (h - st_inlet t))) (st_vol t)).
Proof.
  intros [V L] I. unfold st_heat.
  destruct (Qle_bool k 0) eqn:E1; qbool; cbn [orb].
  - eexists. split; [reflexivity|]. repeat split; auto; intros; try (exfalso; lra); reflexivity.
  - destruct (Qle_bool h (st_inlet (set_outlet t h))) eqn:E2; qbool; [cbn in E2; exfalso; lra|].
    cbn [set_outlet st_inlet st_slope st_vol st_delta st_inter] in *.
    assert (R : 0 < rho_cp * (h - st_inlet t)) by (apply Qmult_lt_0_compat; [reflexivity|lra]).
    rewrite qdiv_ok by lra. cbn [bind]. rewrite qdiv_ok by lra. cbn [bind].
    eexists. split; [reflexivity|]. repeat split; auto; intros; try (exfalso; lra).
    unfold hot, floor_delta. cbn [set_delta set_outlet st_delta st_inter st_slope st_vol].
    set (m := (h - st_inter t) / st_slope t).
    assert (Ev : k * d / 60 * 1000 / (rho_cp * (h - st_inlet t)) == k * 1000 * d / 60 / (rho_cp * (h - st_inlet t))) by (field; repeat split; (lra || exact rho_nz)).
    rewrite Ev. set (v := k * 1000 * d / 60 / (rho_cp * (h - st_inlet t))).
    assert (Em : (m - 100) * st_vol t / 100 == m * st_vol t / 100 - st_vol t) by field. rewrite Em. qmm; lra.
Qed.

(** A draw out of the hot part has the outlet temperature. *)
Lemma avg_hot t g : st_wf t -> st_inlet t <= st_outlet t -> 0 < g -> g <= hot t (st_outlet t) -> hot t (st_outlet t) <= st_vol t ->
  exists a, st_avg t g = Ok a /\ a == st_outlet t.
Proof.
  intros W IO G H1 H2. pose proof (hot_line t (st_outlet t) W) as HL. destruct W as [V L].
  set (h := st_outlet t) in *. set (y := hot t h) in *. set (w := y / st_vol t) in *.
  unfold st_avg. assert (Gq : qmin g (st_vol t) == g) by (qmm; lra).
  destruct (Qle_bool (qmin g (st_vol t)) 0) eqn:E; qbool; [lra|].
  rewrite (qdiv_ok (st_delta t)) by lra. rewrite (qdiv_ok (qmin _ _)) by lra.
  rewrite (qdiv_ok (st_inlet t - st_inter t)) by lra. rewrite (qdiv_ok (st_outlet t - st_inter t)) by lra. cbn [bind]. fold h.
  set (xd := qmax 0 (100 - qmin g (st_vol t) / st_vol t * 100)).
  set (xc := qmax 0 (qmin 100 ((st_inlet t - st_inter t) / st_slope t - st_delta t / st_vol t * 100))).
  set (xh := qmax 0 (qmin 100 ((h - st_inter t) / st_slope t - st_delta t / st_vol t * 100))).
  assert (Gd : 0 < g / st_vol t) by (apply Qlt_shift_div_l; [exact V|lra]).
  assert (Gw : g / st_vol t <= w) by (unfold w; apply qdiv_le_iff; [exact V|]; assert (y / st_vol t * st_vol t == y) by (field; lra); lra).
  assert (W1 : w <= 1) by (unfold w; apply qdiv_le_iff; [exact V|]; lra).
  assert (Exd : xd == 100 - g / st_vol t * 100) by (unfold xd; rewrite Gq; qmm; lra).
  assert (Eh : (h - st_inter t) / st_slope t - st_delta t / st_vol t * 100 == 100 - 100 * w).
  { unfold w, y, hot, floor_delta. field. split; lra. }
  assert (Exh : xh == 100 - 100 * w) by (unfold xh; rewrite Eh; qmm; lra).
  assert (Ec : (st_inlet t - st_inter t) / st_slope t <= (h - st_inter t) / st_slope t).
  { apply qdiv_le_iff; [exact L|]. assert ((h - st_inter t) / st_slope t * st_slope t == h - st_inter t) by (field; lra). lra. }
  assert (Exc : xc <= xh) by (unfold xc, xh; qmm; lra).
  assert (X0 : 0 <= xc) by (unfold xc; qmm; lra).
  clearbody xd xc xh.
  destruct (qltb (qmax xd xc) (qmin 100 xh)) eqn:Q; qbool; [exfalso; revert Q; qmm; lra|].
  destruct (Qle_bool (100 - xd) 0) eqn:E2; qbool; [lra|].
  rewrite qdiv_ok by lra. eexists. split; [reflexivity|].
  assert (A1 : qmax 0 (qmin 100 xc - qmax xd 0) == 0) by (qmm; lra).
  assert (A2 : qmax 0 (100 - qmax xd xh) == 100 - xd) by (qmm; lra).
  rewrite A1, A2. field. lra.
Qed.

Lemma draw_hot t v cold supply h : st_wf t -> cold < h -> 0 <= v -> cold <= supply <= h ->
  blended v supply h cold <= hot t h -> hot t h <= st_vol t ->
  exists t', st_draw t v cold supply h = Ok t' /\ st_vol t' = st_vol t /\ st_slope t' = st_slope t /\ st_inlet t' = cold /\ st_outlet t' = h /\
    hot t' h == hot t h - blended v supply h cold.
Proof.
  intros W CH V0 [S1 S2] H1 H2. unfold st_draw.
  destruct (Qle_bool h cold) eqn:E1; qbool; [exfalso; lra|]. cbn [orb].
  destruct (Qle_bool v 0) eqn:E2; qbool.
  - eexists. split; [reflexivity|]. repeat split; auto. assert (v == 0) by lra. 
    assert (Z : blended v supply h cold == 0) by (unfold blended; rewrite H; field; lra). rewrite Z. change (hot t h == hot t h - 0). ring.
  - rewrite qdiv_ok by lra. cbn [bind]. set (t0 := set_outlet (set_inlet t cold) h).
    assert (W0 : st_wf t0) by exact W. assert (H0 : hot t0 h = hot t h) by reflexivity.
    change (v * (supply - cold) / (h - cold)) with (blended v supply h cold). set (p := blended v supply h cold) in *.
    assert (P0 : 0 <= p) by (unfold p, blended; apply qdiv_nonneg; [nra|lra]).
    assert (AV : exists a, st_avg t0 p = Ok a /\ a == h).
    { destruct (Qlt_le_dec 0 p) as [P|P].
      - apply (avg_hot t0 p W0); cbn; [lra|exact P|exact H1|exact H2].
      - unfold st_avg. assert (qmin p (st_vol t0) <= 0) by (destruct W as [V L]; change (st_vol t0) with (st_vol t); qmm; lra).
        destruct (Qle_bool (qmin p (st_vol t0)) 0) eqn:E; qbool; [|lra]. exists h. split; reflexivity. }
    destruct AV as (a & -> & Ea). cbn [bind].
    destruct (Qle_bool (h - (1 # 1000000)) a) eqn:E3; qbool; [|lra].
    rewrite st_floor_ok by exact W. cbn [bind]. eexists. split; [reflexivity|]. repeat split; auto.
    unfold hot. cbn [set_delta st_delta]. change (floor_delta (set_delta (set_delta t0 (st_delta t0 - p)) _) h) with (floor_delta t h).
    change (floor_delta (set_delta t0 (st_delta t0 - p)) supply) with (floor_delta t supply). change (st_delta t0) with (st_delta t).
    assert (F : floor_delta t supply <= floor_delta t h).
    { destruct W as [V L]. unfold floor_delta. apply Qmult_le_compat_r; [|discriminate]. apply Qmult_le_compat_r; [|lra].
      assert ((supply - st_inter t) / st_slope t <= (h - st_inter t) / st_slope t).
      { apply qdiv_le_iff; [exact L|]. assert ((h - st_inter t) / st_slope t * st_slope t == h - st_inter t) by (field; lra). lra. }
      lra. }
    unfold hot in H1. qmm; lra.
Qed.

Lemma recirc_hot t flow ret d s h : st_wf t -> st_outlet t = h -> st_inlet t < h ->
  exists t', st_recirc t flow ret d (Some s) = Ok t' /\ st_vol t' = st_vol t /\ st_slope t' = st_slope t /\ st_inlet t' = st_inlet t /\ st_outlet t' = h /\
    hot t' h == hot t h - flow * d * (s - ret) / (h - st_inlet t).
Proof.
  intros W E I. unfold st_recirc. rewrite E. destruct (Qle_bool h (st_inlet t)) eqn:E1; qbool; [exfalso; lra|].
  assert (R : 0 < rho_cp * (h - st_inlet t)) by (apply Qmult_lt_0_compat; [reflexivity|lra]).
  rewrite qdiv_ok by lra. cbn [bind]. eexists. split; [reflexivity|]. repeat split; auto.
  unfold hot, floor_delta. cbn [set_delta st_delta st_inter st_slope st_vol]. 
  assert (X : flow * d * rho_cp * (s - ret) / 1000 * 1000 / (rho_cp * (h - st_inlet t)) == flow * d * (s - ret) / (h - st_inlet t)).
  { field. repeat split; (lra || exact rho_nz). }
  rewrite X. ring.
Qed.

(** The initial tank. *)
Lemma init_hot t storage inlet pu : st_wf t -> hot (st_initialize t storage inlet pu) storage == st_vol t * (pu - (storage - inlet) / (100 * st_slope t)).
Proof. intros [V L]. unfold hot, floor_delta, st_initialize. cbn. field. lra. Qed.
