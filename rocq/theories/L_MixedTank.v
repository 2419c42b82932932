(** Facts about the mixed tank. *)
From Verif Require Import Prelude M_StratifiedTank M_MixedTank S_MixedTank.
Open Scope Q_scope.

Lemma rho_pos : 0 < rho_cp. Proof. reflexivity. Qed.
Lemma vrho_pos v : 0 < v -> 0 < v * rho_cp.
Proof. intro. apply qmul_pos; [assumption|apply rho_pos]. Qed.

Ltac mxdiv H := rewrite qdiv_ok by (pose proof (vrho_pos _ H); lra); cbn [bind].

Lemma mix_eq V r g T c : 0 < V -> (V - g) * r * T + g * r * c == V * r * (T + g / V * (c - T)).
Proof. intros. field. lra. Qed.

Lemma mix_between V g T c lo hi x :
  0 < V -> 0 <= g -> g <= V -> lo <= T -> T <= hi -> lo <= c -> c <= hi ->
  V * x == (V - g) * T + g * c -> lo <= x /\ x <= hi.
Proof.
  intros HV Hg HgV H1 H2 H3 H4 E.
  assert (V * lo <= V * x) by nra. assert (V * x <= V * hi) by nra.
  split; apply Qmult_le_l with (z := V); lra.
Qed.

Lemma mx_draw_cases t v c s h :
  0 < mx_vol t ->
  exists t', mx_draw t v c s h = Ok t' /\ mx_vol t' = mx_vol t /\ mx_cold t' = c /\
  ((mx_temp t <= c \/ v <= 0) /\ mx_temp t' = mx_temp t \/
   c < mx_temp t /\ 0 < v /\
   let g := v * (s - c) / qmax (mx_temp t - c) (1 # 1000000) in
   (mx_vol t <= g /\ mx_temp t' = c \/
    g < mx_vol t /\ mx_vol t * mx_temp t' == (mx_vol t - g) * mx_temp t + g * c)).
Proof.
  intros HV. unfold mx_draw. cbn [mx_set_cold mx_temp mx_vol mx_cold].
  destruct (Qle_bool (mx_temp t) c || Qle_bool v 0)%bool eqn:E.
  { eexists. split; [reflexivity|]. cbn. repeat split; auto. left. split; auto.
    qbool. destruct E as [E|E]; qbool; auto. }
  qbool. pose proof (qmax_r (mx_temp t - c) (1 # 1000000)) as Hmx.
  rewrite qdiv_ok by lra. cbn [bind].
  set (g := v * (s - c) / qmax (mx_temp t - c) (1 # 1000000)).
  destruct (Qle_bool (mx_vol t - g) 0) eqn:E2; qbool.
  { eexists. split; [reflexivity|]. cbn. repeat split; auto. right. repeat split; auto.
    left. split; auto. lra. }
  mxdiv HV. eexists. split; [reflexivity|]. cbn. repeat split; auto. right. repeat split; auto.
  right. split; [lra|]. 
  change rho_cp with (8353535 # 1000000). field. lra.
Qed.

Definition exchanged (t t' : mixed) (g c : Q) : Prop :=
  mx_vol t' = mx_vol t /\
  (g <= 0 /\ t' = t \/ mx_vol t <= g /\ 0 < g /\ mx_temp t' = c \/
   0 < g /\ g < mx_vol t /\ mx_vol t * mx_temp t' == (mx_vol t - g) * mx_temp t + g * c).

Lemma mx_draw_physical_cases t g c :
  0 < mx_vol t -> exists t', mx_draw_physical t g c = Ok t' /\ exchanged t t' g c.
Proof.
  intros HV. unfold mx_draw_physical, exchanged.
  destruct (Qle_bool g 0) eqn:E; qbool.
  { eexists. split; [reflexivity|]. auto. }
  destruct (Qle_bool (mx_vol t - g) 0) eqn:E2; qbool.
  { eexists. split; [reflexivity|]. cbn. split; [auto|]. right; left. repeat split; auto; lra. }
  mxdiv HV. eexists. split; [reflexivity|]. cbn. split; [auto|]. right; right. repeat split; try lra.
  change rho_cp with (8353535 # 1000000). field. lra.
Qed.

Lemma mx_inflow_cases t g c :
  0 < mx_vol t -> exists t', mx_inflow t g c = Ok t' /\ exchanged t t' g c.
Proof.
  intros HV. unfold mx_inflow, exchanged.
  destruct (Qle_bool g 0) eqn:E; qbool.
  { eexists. split; [reflexivity|]. auto. }
  destruct (Qle_bool (mx_vol t - g) 0) eqn:E2; qbool.
  { eexists. split; [reflexivity|]. cbn. split; [auto|]. right; left. repeat split; auto; lra. }
  mxdiv HV. eexists. split; [reflexivity|]. cbn. split; [auto|]. right; right. repeat split; try lra.
  change rho_cp with (8353535 # 1000000). field. lra.
Qed.

Lemma mx_recirc_cases t f r d :
  0 < mx_vol t -> exists t', mx_recirc t f r d = Ok t' /\ mx_vol t' = mx_vol t /\
  mx_vol t * mx_temp t' == (mx_vol t - f * d) * mx_temp t + f * d * r.
Proof.
  intros HV. unfold mx_recirc. rewrite qdiv_ok by lra. cbn [bind].
  eexists. split; [reflexivity|]. cbn. split; [auto|]. field. lra.
Qed.

Lemma c25_draw t v c s h :
  0 < mx_vol t -> 0 <= v -> c <= s -> c + (1 # 1000000) <= mx_temp_at t 0 ->
  exists t', mx_draw t v c s h = Ok t' /\
    mx_heat_above c t' == qmax 0 (mx_heat_above c t - v * rho_cp * (s - c)).
Proof.
  unfold mx_heat_above, mx_temp_at. intros HV Hv Hs HT.
  destruct (mx_draw_cases t v c s h HV) as [t' [E [EV [_ H]]]]. exists t'. split; [exact E|]. rewrite EV.
  pose proof rho_pos as R. set (r := rho_cp) in *. clearbody r.
  set (V := mx_vol t) in *. set (T := mx_temp t) in *. set (T' := mx_temp t') in *.
  assert (HVr : 0 < V * r) by (apply qmul_pos; assumption).
  destruct H as [[H ->]|[Hc [Hv' H]]].
  - destruct H as [H|H]; [lra|]. assert (Ev : v == 0) by lra. rewrite Ev.
    assert (0 <= V * r * (T - c)) by (apply qmul_nonneg; lra). qmm; lra.
  - cbv zeta in H. set (g := v * (s - c) / _) in H.
    assert (Eg : g * (T - c) == v * (s - c)).
    { unfold g. destruct (qmax_spec (T - c) (1 # 1000000)) as [[A Em]|[A Em]]; rewrite Em.
      - assert (Q1 : T - c == 1 # 1000000) by lra. rewrite Q1. field.
      - field. lra. }
    clearbody g.
    destruct H as [[H ET]|[H ET]].
    + rewrite ET. assert (V * (T - c) <= g * (T - c)) by nra.
      assert (r * (V * (T - c)) <= r * (v * (s - c))) by nra. qmm; lra.
    + assert (X : V * r * (T' - c) == V * r * (T - c) - v * r * (s - c)).
      { assert (V * (T' - c) == V * (T - c) - v * (s - c)) by lra.
        assert (Y : V * r * (T' - c) == r * (V * (T' - c))) by ring. rewrite Y, H0. ring. }
      rewrite X.
      assert (g * (T - c) < V * (T - c)) by nra.
      assert (r * (v * (s - c)) < r * (V * (T - c))) by nra. qmm; lra.
Qed.

(** In the remaining sliver (warmer than the inlet by less than a millionth of a degree) a draw
    removes at most what was asked. *)
Lemma c25_draw_sliver t v c s h :
  0 < mx_vol t -> 0 <= v -> c <= s -> mx_temp_at t 0 < c + (1 # 1000000) ->
  exists t', mx_draw t v c s h = Ok t' /\
    mx_heat_above c t' <= mx_heat_above c t /\
    mx_heat_above c t - v * rho_cp * (s - c) <= mx_heat_above c t' /\
    (c <= mx_temp_at t 0 -> c <= mx_temp_at t' 0).
Proof.
  unfold mx_heat_above, mx_temp_at. intros HV Hv Hs HT.
  destruct (mx_draw_cases t v c s h HV) as [t' [E [EV [_ H]]]]. exists t'. split; [exact E|]. rewrite EV.
  pose proof rho_pos as R. set (r := rho_cp) in *. clearbody r.
  set (V := mx_vol t) in *. set (T := mx_temp t) in *. set (T' := mx_temp t') in *.
  assert (HVr : 0 < V * r) by (apply qmul_pos; assumption).
  assert (Hq : 0 <= v * (s - c)) by (apply qmul_nonneg; lra).
  assert (Hrq : 0 <= r * (v * (s - c))) by (apply qmul_nonneg; lra).
  destruct H as [[H0 ->]|[Hc [Hv' H0]]]; [lra|].
  cbv zeta in H0. set (g := v * (s - c) / _) in H0.
  assert (Eg : g * (1 # 1000000) == v * (s - c)).
  { unfold g. destruct (qmax_spec (T - c) (1 # 1000000)) as [[A Em]|[A Em]]; rewrite Em; [field|lra]. }
  assert (Hg : 0 <= g) by lra.
  clearbody g.
  assert (G : g * (T - c) <= v * (s - c)) by nra.
  assert (G0 : 0 <= g * (T - c)) by nra.
  destruct H0 as [[H0 ET]|[H0 ET]].
  + rewrite ET. assert (V * (T - c) <= g * (T - c)) by nra.
    assert (r * (V * (T - c)) <= r * (v * (s - c))) by nra.
    assert (0 <= r * (V * (T - c))) by nra. repeat split; try lra.
  + assert (X : V * (T' - c) == V * (T - c) - g * (T - c)) by lra.
    assert (Y : V * r * (T' - c) == V * r * (T - c) - r * (g * (T - c))).
    { assert (Y : V * r * (T' - c) == r * (V * (T' - c))) by ring. rewrite Y, X. ring. }
    assert (r * (g * (T - c)) <= r * (v * (s - c))) by nra.
    assert (0 <= r * (g * (T - c))) by nra.
    repeat split; try lra. intros _.
    assert (g * (T - c) <= V * (T - c)) by nra. assert (0 <= V * (T' - c)) by lra.
    destruct (Qlt_le_dec T' c); [|lra]. assert (V * (T' - c) < 0) by nra. lra.
Qed.

Lemma c25_heat t k d h :
  0 < mx_vol t -> 0 <= k ->
  exists t', mx_heat t k d h = Ok t' /\ mx_heat_above 0 t' == mx_heat_above 0 t + k * 1000 * d / 60.
Proof.
  intros HV Hk. unfold mx_heat, mx_heat_above, mx_temp_at.
  destruct (Qle_bool k 0) eqn:E; qbool.
  { eexists. split; [reflexivity|]. assert (Ek : k == 0) by lra. rewrite Ek. field. }
  mxdiv HV. eexists. split; [reflexivity|]. cbn.
  change rho_cp with (8353535 # 1000000). field. lra.
Qed.

Lemma c25_fixed_loss t k d :
  0 < mx_vol t -> 0 <= k -> 0 <= d ->
  exists t', mx_fixed_loss t k d = Ok t' /\ mx_heat_above 0 t' == mx_heat_above 0 t - k * 1000 * d / 60.
Proof.
  intros HV Hk Hd. unfold mx_fixed_loss, mx_heat_above, mx_temp_at.
  destruct (Qle_bool k 0 || Qle_bool d 0)%bool eqn:E; qbool.
  { eexists. split; [reflexivity|]. destruct E as [E|E]; qbool.
    - assert (Ek : k == 0) by lra. rewrite Ek. field.
    - assert (Ek : d == 0) by lra. rewrite Ek. field. }
  mxdiv HV. eexists. split; [reflexivity|]. cbn.
  change rho_cp with (8353535 # 1000000). field. lra.
Qed.

Lemma exchanged_balance t t' g c :
  0 < mx_vol t -> 0 <= g -> g <= mx_vol t -> exchanged t t' g c ->
  mx_heat_above 0 t' == mx_heat_above 0 t + g * rho_cp * (c - mx_temp_at t 0).
Proof.
  intros HV Hg HgV [EV H]. unfold mx_heat_above, mx_temp_at. rewrite EV. set (r := rho_cp).
  destruct H as [[H ->]|[[H [H2 ET]]|[H [H2 ET]]]].
  - assert (E : g == 0) by lra. rewrite E. ring.
  - assert (E : g == mx_vol t) by lra. rewrite ET, E. ring.
  - assert (Y : mx_vol t * r * (mx_temp t' - 0) == r * (mx_vol t * mx_temp t')) by ring. rewrite Y, ET. ring.
Qed.

Lemma exchanged_all t t' g c :
  0 < mx_vol t -> mx_vol t <= g -> exchanged t t' g c -> mx_temp_at t' 0 == c.
Proof.
  intros HV Hg [EV H]. unfold mx_temp_at.
  destruct H as [[H ->]|[[H [H2 ET]]|[H [H2 ET]]]]; try (rewrite ET; reflexivity); exfalso; lra.
Qed.

Lemma exchanged_between t t' g c lo hi :
  0 < mx_vol t -> lo <= mx_temp t -> mx_temp t <= hi -> lo <= c -> c <= hi ->
  exchanged t t' g c -> lo <= mx_temp t' /\ mx_temp t' <= hi.
Proof.
  intros HV H1 H2 H3 H4 [EV H].
  destruct H as [[H ->]|[[H [H5 ET]]|[H [H5 ET]]]]; [lra|rewrite ET; lra|].
  apply (mix_between (mx_vol t) g (mx_temp t) c lo hi (mx_temp t')); auto; lra.
Qed.

Lemma c25_inflow t g p :
  0 < mx_vol t -> 0 <= g -> exists t', mx_inflow t g p = Ok t' /\
    (g <= mx_vol t -> mx_heat_above 0 t' == mx_heat_above 0 t + g * rho_cp * (p - mx_temp_at t 0)) /\
    (mx_vol t <= g -> mx_temp_at t' 0 == p).
Proof.
  intros HV Hg. destruct (mx_inflow_cases t g p HV) as [t' [E X]]. exists t'. split; [exact E|]. split.
  - intros. apply exchanged_balance; auto.
  - intros. eapply exchanged_all; eauto.
Qed.
Lemma c25_draw_physical t g p :
  0 < mx_vol t -> 0 <= g -> exists t', mx_draw_physical t g p = Ok t' /\
    (g <= mx_vol t -> mx_heat_above 0 t' == mx_heat_above 0 t + g * rho_cp * (p - mx_temp_at t 0)) /\
    (mx_vol t <= g -> mx_temp_at t' 0 == p).
Proof.
  intros HV Hg. destruct (mx_draw_physical_cases t g p HV) as [t' [E X]]. exists t'. split; [exact E|]. split.
  - intros. apply exchanged_balance; auto.
  - intros. eapply exchanged_all; eauto.
Qed.
Lemma c25_recirc t f r d :
  0 < mx_vol t -> exists t', mx_recirc t f r d = Ok t' /\
    mx_heat_above 0 t' == mx_heat_above 0 t + f * d * rho_cp * (r - mx_temp_at t 0).
Proof.
  intros HV. destruct (mx_recirc_cases t f r d HV) as [t' [E [EV X]]]. exists t'. split; [exact E|].
  unfold mx_heat_above, mx_temp_at. rewrite EV. set (q := rho_cp).
  assert (Y : mx_vol t * q * (mx_temp t' - 0) == q * (mx_vol t * mx_temp t')) by ring. rewrite Y, X. ring.
Qed.

Lemma mx_step_between t o lo hi :
  0 < mx_vol t -> lo <= mx_temp t -> mx_temp t <= hi -> exchange_ok (mx_vol t) lo hi o ->
  exists t', mx_step t o = Ok t' /\ mx_vol t' = mx_vol t /\ lo <= mx_temp t' /\ mx_temp t' <= hi.
Proof.
  intros HV H1 H2 Ho. destruct o as [st c0 pu|v c s h|k d h|f r d|k d|g p|g c]; simpl in Ho; try tauto; cbn [mx_step].
  - eexists. split; [reflexivity|]. cbn. split; [reflexivity|]. lra.
  - destruct Ho as [[Hc Hc'] Hs].
    destruct (mx_draw_cases t v c s h HV) as [t' [E [EV [_ H]]]]. exists t'.
    split; [exact E|]. split; [exact EV|].
    destruct H as [[_ ->]|[Hc2 [Hv' H]]]; [lra|].
    cbv zeta in H. pose proof (qmax_r (mx_temp t - c) (1 # 1000000)) as Hmx.
    assert (Hg0 : 0 <= v * (s - c) / qmax (mx_temp t - c) (1 # 1000000)).
    { apply qdiv_nonneg; [apply qmul_nonneg; lra|lra]. }
    revert H Hg0. generalize (v * (s - c) / qmax (mx_temp t - c) (1 # 1000000)) as g. intros g H Hg0.
    destruct H as [[_ ->]|[Hg ET]]; [lra|].
    apply (mix_between (mx_vol t) g (mx_temp t) c lo hi (mx_temp t')); auto; lra.
  - destruct Ho as [[Hr Hr'] [Hf Hf']].
    destruct (mx_recirc_cases t f r d HV) as [t' [E [EV X]]]. exists t'. split; [exact E|]. split; [exact EV|].
    apply (mix_between (mx_vol t) (f * d) (mx_temp t) r lo hi (mx_temp t')); auto; lra.
  - destruct (mx_inflow_cases t g p HV) as [t' [E X]]. exists t'. split; [exact E|].
    split; [apply X|]. destruct Ho. eapply exchanged_between; eauto.
  - destruct (mx_draw_physical_cases t g c HV) as [t' [E X]]. exists t'. split; [exact E|].
    split; [apply X|]. destruct Ho. eapply exchanged_between; eauto.
Qed.

Lemma c25_between lo hi os : forall t,
  0 < mx_vol t -> lo <= mx_temp_at t 0 -> mx_temp_at t 0 <= hi ->
  Forall (exchange_ok (mx_vol t) lo hi) os ->
  exists t', mx_run t os = Ok t' /\ lo <= mx_temp_at t' 0 /\ mx_temp_at t' 0 <= hi.
Proof.
  unfold mx_temp_at. induction os as [|o os IH]; intros t HV H1 H2 H.
  - exists t. split; [reflexivity|]. auto.
  - inversion H as [|? ? Ho Hos]; subst.
    destruct (mx_step_between t o lo hi HV H1 H2 Ho) as [t1 [E [EV [A B]]]].
    cbn [mx_run]. rewrite E. cbn [bind]. apply IH; auto; rewrite EV; auto.
Qed.

Lemma c26_ignores t k d h1 h2 : mx_heat t k d h1 = mx_heat t k d h2.
Proof. reflexivity. Qed.

Lemma c26_unbounded t d h M :
  0 < mx_vol t -> 0 < d ->
  exists k t', 0 < k /\ mx_heat t k d h = Ok t' /\ M < mx_temp_at t' 0.
Proof.
  intros HV Hd. unfold mx_temp_at.
  set (D := qmax 1 (M - mx_temp t + 1)).
  assert (HD : 0 < D) by (unfold D; qmm; lra).
  assert (HDM : M - mx_temp t + 1 <= D) by (unfold D; qmm; lra). clearbody D.
  pose proof (vrho_pos _ HV) as HR. set (R := mx_vol t * rho_cp) in *.
  exists (D * R * 60 / (d * 1000)).
  assert (Hk : 0 < D * R * 60 / (d * 1000)).
  { apply qdiv_pos; [|lra]. assert (0 < D * R) by (apply qmul_pos; lra). lra. }
  unfold mx_heat. destruct (Qle_bool _ 0) eqn:E; qbool; [lra|].
  fold R. rewrite qdiv_ok by lra. cbn [bind]. eexists. split; [exact Hk|]. split; [reflexivity|]. cbn.
  assert (X : D * R * 60 / (d * 1000) * d / 60 * 1000 / R == D) by (field; lra).
  rewrite X. lra.
Qed.
