(** Lemmas about the stratified tank model. *)
From Verif Require Import Prelude S_Integral L_Integral L_Ramp M_StratifiedTank S_StratifiedTank.
Open Scope Q_scope.

Definition shiftp (t : strat) : Q := st_delta t / st_vol t * 100.
Definition rpt (t : strat) : Q := (st_inlet t - st_inter t) / st_slope t - shiftp t.
Definition wid (t : strat) : Q := (st_outlet t - st_inlet t) / st_slope t.

(** ** Temperature *)
Definition tval (t : strat) (f : Q) : Q :=
  qmax (st_inlet t) (qmin (st_outlet t) (st_slope t * (f * 100 + st_delta t / st_vol t * 100) + st_inter t)).

Lemma st_temp_ok t f : st_wf t -> st_temp t f = Ok (tval t f).
Proof. intros [H _]. unfold st_temp. rewrite qdiv_ok by lra. reflexivity. Qed.

Lemma tval_ramp t f : st_wf t ->
  tval t f == ramp (st_inlet t) (st_outlet t) (st_slope t) (rpt t) (f * 100).
Proof.
  intros [H1 H2]. unfold tval, ramp, rpt, shiftp.
  assert (E : st_slope t * (f * 100 - ((st_inlet t - st_inter t) / st_slope t - st_delta t / st_vol t * 100)) + st_inlet t
            == st_slope t * (f * 100 + st_delta t / st_vol t * 100) + st_inter t) by (field; lra).
  rewrite E. reflexivity.
Qed.

Lemma tval_mono t f g : st_wf t -> f <= g -> tval t f <= tval t g.
Proof. intros W H. rewrite !tval_ramp by assumption. apply ramp_mono; [apply W|lra]. Qed.

Lemma tval_range t f : st_inlet t <= st_outlet t -> st_inlet t <= tval t f /\ tval t f <= st_outlet t.
Proof. intros H. unfold tval. split; qmm; lra. Qed.

(** The profile only depends on [delta] through its sum with the height. *)
Lemma tval_shift t g f : st_wf t ->
  tval (set_delta t (st_delta t - g)) f == tval t (f - g / st_vol t).
Proof.
  intros [H1 H2]. unfold tval; cbn [st_vol st_slope st_delta st_inter st_inlet st_outlet set_delta].
  assert (E : st_slope t * (f * 100 + (st_delta t - g) / st_vol t * 100) + st_inter t
           == st_slope t * ((f - g / st_vol t) * 100 + st_delta t / st_vol t * 100) + st_inter t) by (field; lra).
  rewrite E. reflexivity.
Qed.

Lemma tval_delta_mono t d d' f : st_wf t -> d <= d' -> tval (set_delta t d) f <= tval (set_delta t d') f.
Proof.
  intros [H1 H2] H. unfold tval; cbn [st_vol st_slope st_delta st_inter st_inlet st_outlet set_delta].
  assert (d / st_vol t <= d' / st_vol t).
  { apply qdiv_le_iff; auto. assert (d' / st_vol t * st_vol t == d') by (field; lra). lra. }
  assert (st_slope t * (f * 100 + d / st_vol t * 100) <= st_slope t * (f * 100 + d' / st_vol t * 100)) by nra.
  qmm; lra.
Qed.

(** ** Average draw temperature *)
Definition wpct (t : strat) (g : Q) : Q := qmin g (st_vol t) / st_vol t * 100.
Definition heat_pct (t : strat) (w : Q) : Q :=
  ramp_F (st_inlet t) (st_slope t) (rpt t) (wid t) 100 - ramp_F (st_inlet t) (st_slope t) (rpt t) (wid t) (100 - w).

Lemma wid_facts t : st_wf t -> st_inlet t <= st_outlet t ->
  0 <= wid t /\ st_outlet t == st_inlet t + st_slope t * wid t.
Proof.
  intros [H1 H2] H. unfold wid. split.
  - apply qdiv_nonneg; lra.
  - field. lra.
Qed.

Lemma wpct_range t g : st_wf t -> 0 < g -> 0 < wpct t g /\ wpct t g <= 100.
Proof.
  intros [H1 H2] H. unfold wpct.
  assert (0 < qmin g (st_vol t)) by (qmm; lra).
  assert (qmin g (st_vol t) <= st_vol t) by apply qmin_r.
  assert (0 < qmin g (st_vol t) / st_vol t) by (apply qdiv_pos; lra).
  assert (qmin g (st_vol t) / st_vol t <= 1) by (apply qdiv_le_iff; lra).
  split; lra.
Qed.

Global Instance ramp_F_compat : Proper (Qeq ==> Qeq ==> Qeq ==> Qeq ==> Qeq ==> Qeq) ramp_F.
Proof. intros c c' Hc m m' Hm r r' Hr w w' Hw x x' Hx. unfold ramp_F, pos. rewrite Hc, Hm, Hr, Hw, Hx. reflexivity. Qed.

Lemma zone_generic c h m i u r w rc rh xd :
  0 <= xd -> rc - u == r -> rh - u == r + w ->
  (forall z, m * (z + u) + i == m * (z - r) + c) ->
  c * qmax 0 (qmin 100 (qmax 0 (qmin 100 (rc - u))) - qmax xd 0)
  + (if qltb (qmax xd (qmax 0 (qmin 100 (rc - u)))) (qmin 100 (qmax 0 (qmin 100 (rh - u))))
     then m / 2 * ((qmin 100 (qmax 0 (qmin 100 (rh - u))) + u) ^ 2 - (qmax xd (qmax 0 (qmin 100 (rc - u))) + u) ^ 2)
          + i * (qmin 100 (qmax 0 (qmin 100 (rh - u))) - qmax xd (qmax 0 (qmin 100 (rc - u))))
     else 0)
  + h * qmax 0 (100 - qmax xd (qmax 0 (qmin 100 (rh - u))))
  == zone_int c h m r w xd 100.
Proof.
  intros Hx Er Eh EE. unfold zone_int, clampp.
  assert (Ec : qmax 0 (qmin 100 (rc - u)) == qmax 0 (qmin 100 r)) by (rewrite Er; reflexivity).
  assert (Ex : qmax 0 (qmin 100 (rh - u)) == qmax 0 (qmin 100 (r + w))) by (rewrite Eh; reflexivity).
  revert Ec Ex. clear Er Eh.
  generalize (qmax 0 (qmin 100 (rc - u))) as xc'. generalize (qmax 0 (qmin 100 (rh - u))) as xh'.
  generalize (qmax 0 (qmin 100 r)) as xc. generalize (qmax 0 (qmin 100 (r + w))) as xh.
  intros xh xc xh' xc' Ec Ex.
  assert (Em : qmax xd 0 == xd) by (qmm; lra).
  assert (Ea : qmax xd xc' == qmax xd xc) by (rewrite Ec; reflexivity).
  assert (Eb : qmin 100 xh' == qmin 100 xh) by (rewrite Ex; reflexivity).
  assert (E1 : c * qmax 0 (qmin 100 xc' - qmax xd 0) == c * qmax 0 (qmin 100 xc - xd)) by (rewrite Ec, Em; reflexivity).
  assert (E2 : h * qmax 0 (100 - qmax xd xh') == h * qmax 0 (100 - qmax xd xh)) by (rewrite Ex; reflexivity).
  revert Ea Eb E1 E2.
  generalize (c * qmax 0 (qmin 100 xc' - qmax xd 0)) as p1'. generalize (c * qmax 0 (qmin 100 xc - xd)) as p1.
  generalize (h * qmax 0 (100 - qmax xd xh')) as p2'. generalize (h * qmax 0 (100 - qmax xd xh)) as p2.
  generalize (qmin 100 xh') as b'. generalize (qmax xd xc') as a'.
  generalize (qmin 100 xh) as b. generalize (qmax xd xc) as a.
  intros a b a' b' p2 p2' p1 p1' Ea Eb E1 E2.
  rewrite (qltb_compat a' a Ea b' b Eb).
  destruct (qltb a b); [|lra].
  assert (Etr : m / 2 * ((b' + u) ^ 2 - (a' + u) ^ 2) + i * (b' - a')
       == m * (1 # 2) * ((b - r) * (b - r) - (a - r) * (a - r)) + c * (b - a)).
  { pose proof (EE a) as Fa. pose proof (EE b) as Fb.
    transitivity ((b' - a') * (1 # 2) * ((m * (b' + u) + i) + (m * (a' + u) + i))).
    - field.
    - rewrite Ea, Eb, Fa, Fb. ring. }
  lra.
Qed.

Lemma st_avg_ok t g : st_wf t -> st_inlet t <= st_outlet t -> 0 < g ->
  exists a, st_avg t g = Ok a /\ a * wpct t g == heat_pct t (wpct t g).
Proof.
  intros W Hio Hg. destruct (wpct_range t g W Hg) as [Hw1 Hw2].
  destruct (wid_facts t W Hio) as [Hwd Hout]. destruct W as [H1 H2].
  unfold st_avg.
  assert (Hq : 0 < qmin g (st_vol t)) by (qmm; lra).
  destruct (Qle_bool (qmin g (st_vol t)) 0) eqn:E; qbool; [lra|].
  rewrite (qdiv_ok (st_delta t)) by lra.
  rewrite (qdiv_ok (qmin _ _)) by lra.
  rewrite (qdiv_ok (st_inlet t - st_inter t)) by lra.
  rewrite (qdiv_ok (st_outlet t - st_inter t)) by lra.
  cbn [bind]. fold (wpct t g).
  set (xd := qmax 0 (100 - wpct t g)).
  assert (Exd : xd == 100 - wpct t g) by (unfold xd; qmm; lra).
  destruct (Qle_bool (100 - xd) 0) eqn:E2; qbool; [lra|].
  match goal with |- exists a, qdiv ?N _ = _ /\ _ => set (N0 := N) end.
  assert (EN : N0 == zone_int (st_inlet t) (st_outlet t) (st_slope t) (rpt t) (wid t) xd 100).
  { subst N0. apply zone_generic.
    - apply qmax_l.
    - unfold rpt, shiftp. reflexivity.
    - unfold rpt, wid, shiftp. field. lra.
    - intro z. unfold rpt, shiftp. field. lra. }
  rewrite qdiv_ok by lra. eexists. split; [reflexivity|].
  rewrite EN. rewrite zone_int_F; try lra; auto.
  unfold heat_pct. rewrite Exd.
  field. lra.
Qed.

Lemma st_avg_total t g : st_wf t -> exists a, st_avg t g = Ok a.
Proof.
  intros [H1 H2]. unfold st_avg.
  destruct (Qle_bool (qmin g (st_vol t)) 0) eqn:E; [eauto|].
  rewrite !qdiv_ok by lra. cbn [bind].
  destruct (Qle_bool (100 - _) 0) eqn:E2; [eauto|].
  qbool. rewrite qdiv_ok by lra. eauto.
Qed.
