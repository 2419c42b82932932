(** Lemmas about the stratified tank model, second part: means, usable volume, operations. *)
From Verif Require Import Prelude S_Integral L_Integral L_Ramp M_StratifiedTank S_StratifiedTank L_StratifiedTank.
Open Scope Q_scope.

Global Instance heat_pct_compat (t : strat) : Proper (Qeq ==> Qeq) (heat_pct t).
Proof. intros w w' Hw. unfold heat_pct. rewrite Hw. reflexivity. Qed.

(** ** The average is the mean of the profile *)
Definition tF (t : strat) (f : Q) : Q :=
  ramp_F (st_inlet t) (st_slope t) (rpt t) (wid t) (f * 100) / 100.

Lemma tval_squeezes t a b : st_wf t -> st_inlet t <= st_outlet t -> squeezes (tval t) (tF t) a b.
Proof.
  intros W Hio x y _ Hxy _.
  destruct (wid_facts t W Hio) as [Hw Ho]. destruct W as [H1 H2].
  destruct (ramp_squeezes (st_inlet t) (st_outlet t) (st_slope t) (rpt t) (wid t) (x * 100) (y * 100) H2 Hw Ho (x * 100) (y * 100)) as [A B]; try lra.
  pose proof (tval_ramp t x (conj H1 H2)) as Ex. pose proof (tval_ramp t y (conj H1 H2)) as Ey.
  unfold tF, Qdiv. change (/ 100) with (1 # 100).
  revert A B Ex Ey.
  generalize (ramp (st_inlet t) (st_outlet t) (st_slope t) (rpt t) (x * 100)) as p.
  generalize (ramp (st_inlet t) (st_outlet t) (st_slope t) (rpt t) (y * 100)) as q.
  generalize (ramp_F (st_inlet t) (st_slope t) (rpt t) (wid t) (x * 100)) as P.
  generalize (ramp_F (st_inlet t) (st_slope t) (rpt t) (wid t) (y * 100)) as R.
  generalize (tval t x) as u. generalize (tval t y) as v.
  intros v u R P q p A B Ex Ey. rewrite Ex, Ey.
  split; lra.
Qed.

Lemma wpct_le t g : st_wf t -> 0 < g -> g <= st_vol t -> wpct t g == g / st_vol t * 100.
Proof.
  intros [H1 H2] Hg Hv. unfold wpct.
  assert (E : qmin g (st_vol t) == g) by (qmm; lra). rewrite E. reflexivity.
Qed.

Lemma st_avg_mean t g a : st_wf t -> st_inlet t <= st_outlet t -> 0 < g -> g <= st_vol t ->
  st_avg t g = Ok a -> is_mean (tval t) (1 - g / st_vol t) 1 a.
Proof.
  intros W Hio Hg Hv Ha.
  destruct (st_avg_ok t g W Hio Hg) as [a' [Ha' Ea]]. rewrite Ha in Ha'. inversion Ha'; subst a'. clear Ha'.
  pose proof (tval_squeezes t (1 - g / st_vol t) 1 W Hio) as S.
  apply integral_of_antiderivative in S.
  assert (E : tF t 1 - tF t (1 - g / st_vol t) == a * (1 - (1 - g / st_vol t))).
  { unfold tF. rewrite (wpct_le t g W Hg Hv) in Ea. unfold heat_pct in Ea.
    assert (E1 : 1 * 100 == 100) by lra. rewrite E1.
    assert (E2 : (1 - g / st_vol t) * 100 == 100 - g / st_vol t * 100) by ring. rewrite E2.
    revert Ea. generalize (g / st_vol t) as z. intros z Ea.
    revert Ea. generalize (ramp_F (st_inlet t) (st_slope t) (rpt t) (wid t) 100) as P.
    generalize (ramp_F (st_inlet t) (st_slope t) (rpt t) (wid t) (100 - z * 100)) as R.
    intros R P Ea. unfold Qdiv. change (/ 100) with (1 # 100). lra. }
  intros pts Hp. destruct (S pts Hp) as [A B]. rewrite <- E. split; assumption.
Qed.

Lemma st_avg_range t g a : st_wf t -> st_inlet t <= st_outlet t ->
  st_avg t g = Ok a -> st_inlet t <= a /\ a <= st_outlet t.
Proof.
  intros W Hio Ha.
  destruct (Qlt_le_dec 0 g) as [Hg|Hg].
  2:{ unfold st_avg in Ha. destruct (Qle_bool (qmin g (st_vol t)) 0) eqn:E.
      - inversion Ha. subst. lra.
      - qbool. pose proof (qmin_l g (st_vol t)). lra. }
  destruct (st_avg_ok t g W Hio Hg) as [a' [Ha' Ea]]. rewrite Ha in Ha'. inversion Ha'; subst a'. clear Ha'.
  destruct (wpct_range t g W Hg) as [Hw1 Hw2].
  destruct (wid_facts t W Hio) as [Hw Ho]. pose proof W as [H1 H2].
  destruct (ramp_squeezes (st_inlet t) (st_outlet t) (st_slope t) (rpt t) (wid t) 0 100 H2 Hw Ho (100 - wpct t g) 100) as [A B]; try lra.
  destruct (ramp_range (st_inlet t) (st_outlet t) (st_slope t) (rpt t) 100 Hio) as [R1 R2].
  destruct (ramp_range (st_inlet t) (st_outlet t) (st_slope t) (rpt t) (100 - wpct t g) Hio) as [R3 R4].
  unfold heat_pct in Ea. revert A B Ea R1 R2 R3 R4 Hw1.
  generalize (ramp (st_inlet t) (st_outlet t) (st_slope t) (rpt t) 100) as p.
  generalize (ramp (st_inlet t) (st_outlet t) (st_slope t) (rpt t) (100 - wpct t g)) as q.
  generalize (ramp_F (st_inlet t) (st_slope t) (rpt t) (wid t) 100) as P.
  generalize (ramp_F (st_inlet t) (st_slope t) (rpt t) (wid t) (100 - wpct t g)) as R.
  generalize (wpct t g) as w. intros w R P q p A B Ea R1 R2 R3 R4 Hw1.
  rewrite <- Ea in A, B. split; nra.
Qed.

Lemma st_avg_antitone t g1 g2 a1 a2 : st_wf t -> st_inlet t <= st_outlet t ->
  g1 <= g2 -> st_avg t g1 = Ok a1 -> st_avg t g2 = Ok a2 -> a2 <= a1.
Proof.
  intros W Hio H12 Ha1 Ha2.
  destruct (Qlt_le_dec 0 g1) as [Hg|Hg].
  2:{ assert (a1 = st_outlet t).
      { unfold st_avg in Ha1. destruct (Qle_bool (qmin g1 (st_vol t)) 0) eqn:E.
        - inversion Ha1. auto.
        - qbool. pose proof (qmin_l g1 (st_vol t)). lra. }
      subst a1. apply (st_avg_range t g2 a2 W Hio Ha2). }
  assert (Hg2 : 0 < g2) by lra.
  destruct (st_avg_ok t g1 W Hio Hg) as [a1' [Ha1' E1]]. rewrite Ha1 in Ha1'. inversion Ha1'; subst a1'. clear Ha1'.
  destruct (st_avg_ok t g2 W Hio Hg2) as [a2' [Ha2' E2]]. rewrite Ha2 in Ha2'. inversion Ha2'; subst a2'. clear Ha2'.
  destruct (wpct_range t g1 W Hg) as [P1 P2]. destruct (wpct_range t g2 W Hg2) as [Q1 Q2].
  assert (Hww : wpct t g1 <= wpct t g2).
  { unfold wpct. destruct W as [V1 V2].
    assert (qmin g1 (st_vol t) <= qmin g2 (st_vol t)) by (qmm; lra).
    assert (qmin g1 (st_vol t) / st_vol t <= qmin g2 (st_vol t) / st_vol t); [|lra].
    apply qdiv_le_iff; auto.
    assert (qmin g2 (st_vol t) / st_vol t * st_vol t == qmin g2 (st_vol t)) by (field; lra). lra. }
  destruct (wid_facts t W Hio) as [Hw Ho]. pose proof W as [H1 H2].
  pose proof (ramp_squeezes (st_inlet t) (st_outlet t) (st_slope t) (rpt t) (wid t) 0 100 H2 Hw Ho) as S.
  destruct (S (100 - wpct t g1) 100) as [A B]; try lra.
  destruct (S (100 - wpct t g2) (100 - wpct t g1)) as [C D]; try lra.
  unfold heat_pct in *. revert A B C D E1 E2 P1 P2 Q1 Q2 Hww. clear S.
  generalize (ramp (st_inlet t) (st_outlet t) (st_slope t) (rpt t) 100) as p.
  generalize (ramp (st_inlet t) (st_outlet t) (st_slope t) (rpt t) (100 - wpct t g1)) as q.
  generalize (ramp (st_inlet t) (st_outlet t) (st_slope t) (rpt t) (100 - wpct t g2)) as q2.
  generalize (ramp_F (st_inlet t) (st_slope t) (rpt t) (wid t) 100) as P.
  generalize (ramp_F (st_inlet t) (st_slope t) (rpt t) (wid t) (100 - wpct t g1)) as R.
  generalize (ramp_F (st_inlet t) (st_slope t) (rpt t) (wid t) (100 - wpct t g2)) as R2.
  generalize (wpct t g1) as w1. generalize (wpct t g2) as w2.
  intros w2 w1 R2 R P q2 q p A B C D E1 E2 P1 P2 Q1 Q2 Hww.
  rewrite <- E1 in A, B.
  assert (q <= a1) by nra.
  assert (a2 * w2 <= a1 * w1 + q * (w2 - w1)) by lra.
  assert (q * (w2 - w1) <= a1 * (w2 - w1)) by nra.
  assert (a2 * w2 <= a1 * w2) by lra.
  nra.
Qed.

(** ** Usable volume *)
Lemma st_usable_level t s u : st_wf t -> st_inlet t < s -> s <= st_outlet t ->
  st_usable t s = Ok u -> exists m, u == m * st_vol t /\ is_level_length (tval t) 0 1 s m.
Proof.
  intros [H1 H2] Hs1 Hs2 Hu. unfold st_usable in Hu.
  rewrite !qdiv_ok in Hu by lra. cbn [bind] in Hu. inversion Hu; subst u. clear Hu.
  set (x := (s - st_inter t) / st_slope t - st_delta t / st_vol t * 100).
  exists ((100 - qmax 0 (qmin 100 x)) / 100). split; [reflexivity|].
  exists (qmax 0 (qmin 100 x) / 100).
  assert (Hx : st_slope t * (x + st_delta t / st_vol t * 100) + st_inter t == s).
  { unfold x. field. lra. }
  assert (B : 0 <= qmax 0 (qmin 100 x) /\ qmax 0 (qmin 100 x) <= 100) by (split; qmm; lra).
  assert (Hd : forall z, z / 100 == z * (1 # 100)) by (intro; reflexivity).
  repeat split.
  - rewrite Hd. lra.
  - rewrite Hd. lra.
  - rewrite !Hd. lra.
  - intros y Hy Hyx. rewrite Hd in Hyx. unfold tval.
    assert (L : y * 100 < x) by (revert Hyx; qmm; intros; lra).
    revert Hx. generalize (st_delta t / st_vol t * 100) as d. intros d Hx.
    assert (st_slope t * (y * 100 + d) < st_slope t * (x + d)) by nra.
    qmm; lra.
  - intros y Hyx Hy. rewrite Hd in Hyx. unfold tval.
    assert (L : x <= y * 100) by (revert Hyx; qmm; intros; lra).
    revert Hx. generalize (st_delta t / st_vol t * 100) as d. intros d Hx.
    assert (st_slope t * (x + d) <= st_slope t * (y * 100 + d)) by nra.
    qmm; lra.
Qed.

Lemma st_usable_ok t s : st_wf t -> exists u, st_usable t s = Ok u /\ 0 <= u /\ u <= st_vol t.
Proof.
  intros [H1 H2]. unfold st_usable. rewrite !qdiv_ok by lra. cbn [bind].
  eexists. split; [reflexivity|].
  set (x := (s - st_inter t) / st_slope t - st_delta t / st_vol t * 100).
  assert (B : 0 <= qmax 0 (qmin 100 x) /\ qmax 0 (qmin 100 x) <= 100) by (split; qmm; lra).
  revert B. generalize (qmax 0 (qmin 100 x)) as z. intros z B. unfold Qdiv. change (/ 100) with (1 # 100).
  split; nra.
Qed.

Lemma st_usable_antitone t s1 s2 u1 u2 : st_wf t -> s1 <= s2 ->
  st_usable t s1 = Ok u1 -> st_usable t s2 = Ok u2 -> u2 <= u1.
Proof.
  intros [H1 H2] Hs E1 E2. unfold st_usable in *. rewrite !qdiv_ok in E1, E2 by lra. cbn [bind] in *.
  inversion E1; inversion E2; subst. clear E1 E2.
  assert (L : (s1 - st_inter t) / st_slope t <= (s2 - st_inter t) / st_slope t).
  { apply qdiv_le_iff; auto.
    assert ((s2 - st_inter t) / st_slope t * st_slope t == s2 - st_inter t) by (field; lra). lra. }
  revert L. generalize ((s1 - st_inter t) / st_slope t) as p. generalize ((s2 - st_inter t) / st_slope t) as q.
  generalize (st_delta t / st_vol t * 100) as d. intros d q p L.
  assert (B : qmax 0 (qmin 100 (p - d)) <= qmax 0 (qmin 100 (q - d))) by (qmm; lra).
  revert B. generalize (qmax 0 (qmin 100 (p - d))) as z. generalize (qmax 0 (qmin 100 (q - d))) as w.
  intros w z B. unfold Qdiv. change (/ 100) with (1 # 100). nra.
Qed.

(** ** Heat content of the top of the tank *)
Definition content (t : strat) (g : Q) : Q :=
  st_vol t / 100 * (heat_pct t (g / st_vol t * 100) - st_inlet t * (g / st_vol t * 100)).

Lemma content_avg t g a : st_wf t -> st_inlet t <= st_outlet t -> 0 < g -> g <= st_vol t ->
  st_avg t g = Ok a -> g * (a - st_inlet t) == content t g.
Proof.
  intros W Hio Hg Hv Ha.
  destruct (st_avg_ok t g W Hio Hg) as [a' [Ha' Ea]]. rewrite Ha in Ha'. inversion Ha'; subst a'. clear Ha'.
  unfold content. rewrite (wpct_le t g W Hg Hv) in Ea. destruct W as [H1 H2].
  revert Ea. generalize (heat_pct t (g / st_vol t * 100)) as H. intros H Ea.
  rewrite <- Ea. field. lra.
Qed.

Lemma content_lip t g1 g2 : st_wf t -> st_inlet t <= st_outlet t -> g1 <= g2 ->
  0 <= content t g2 - content t g1 /\ content t g2 - content t g1 <= (st_outlet t - st_inlet t) * (g2 - g1).
Proof.
  intros W Hio H12. destruct (wid_facts t W Hio) as [Hw Ho]. destruct W as [H1 H2].
  assert (Hz : g1 / st_vol t <= g2 / st_vol t).
  { apply qdiv_le_iff; auto. assert (g2 / st_vol t * st_vol t == g2) by (field; lra). lra. }
  pose proof (ramp_squeezes (st_inlet t) (st_outlet t) (st_slope t) (rpt t) (wid t) 0 100 H2 Hw Ho) as S.
  set (w1 := g1 / st_vol t * 100). set (w2 := g2 / st_vol t * 100).
  assert (S' := ramp_squeezes (st_inlet t) (st_outlet t) (st_slope t) (rpt t) (wid t) (100 - w2) (100 - w1) H2 Hw Ho (100 - w2) (100 - w1)).
  destruct S' as [A B]; try (unfold w1, w2; lra).
  destruct (ramp_range (st_inlet t) (st_outlet t) (st_slope t) (rpt t) (100 - w1) Hio) as [R1 R2].
  destruct (ramp_range (st_inlet t) (st_outlet t) (st_slope t) (rpt t) (100 - w2) Hio) as [R3 R4].
  unfold content, heat_pct. fold w1 w2.
  assert (Eg1 : g1 == st_vol t / 100 * w1) by (unfold w1; field; lra).
  assert (Eg2 : g2 == st_vol t / 100 * w2) by (unfold w2; field; lra).
  assert (W12 : w1 <= w2) by (unfold w1, w2; lra).
  assert (HV : 0 < st_vol t / 100) by (apply qdiv_pos; lra).
  revert A B R1 R2 R3 R4 Eg1 Eg2 W12 HV. clear S Hz.
  generalize (ramp (st_inlet t) (st_outlet t) (st_slope t) (rpt t) (100 - w1)) as p.
  generalize (ramp (st_inlet t) (st_outlet t) (st_slope t) (rpt t) (100 - w2)) as q.
  generalize (ramp_F (st_inlet t) (st_slope t) (rpt t) (wid t) 100) as P.
  generalize (ramp_F (st_inlet t) (st_slope t) (rpt t) (wid t) (100 - w1)) as R.
  generalize (ramp_F (st_inlet t) (st_slope t) (rpt t) (wid t) (100 - w2)) as R'.
  generalize w1 w2. generalize (st_vol t / 100) as k. clear w1 w2.
  intros k w1 w2 R' R P q p A B R1 R2 R3 R4 Eg1 Eg2 W12 HV.
  rewrite Eg1, Eg2. clear Eg1 Eg2.
  assert (Hlo : st_inlet t * (w2 - w1) <= R - R') by nra.
  assert (Hhi : R - R' <= st_outlet t * (w2 - w1)) by nra.
  split; nra.
Qed.

Lemma content_0 t g : st_wf t -> g == 0 -> content t g == 0.
Proof.
  intros [H1 H2] Hg. unfold content, heat_pct.
  assert (E : g / st_vol t * 100 == 0) by (rewrite Hg; field; lra).
  rewrite E. assert (E2 : 100 - 0 == 100) by lra. rewrite E2. ring.
Qed.
