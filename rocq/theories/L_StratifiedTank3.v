(** Lemmas about the stratified tank model, third part: draw, heat, recirculation, histories. *)
From Verif Require Import Prelude S_Integral L_Integral L_Ramp M_StratifiedTank S_StratifiedTank L_StratifiedTank L_StratifiedTank2.
Open Scope Q_scope.

Definition with_temps (t : strat) (cold outlet : Q) : strat := set_outlet (set_inlet t cold) outlet.

Lemma wf_with_temps t c h : st_wf t -> st_wf (with_temps t c h).
Proof. exact (fun H => H). Qed.

(** ** The bisection *)
Lemma st_search_range n t cold sd dem lo hi A lo' hi' :
  A <= lo -> A <= hi -> st_search n t cold sd dem lo hi = Ok (lo', hi') -> A <= lo' /\ A <= hi'.
Proof.
  revert lo hi. induction n as [|n IH]; intros lo hi Hlo Hhi H; cbn [st_search] in H.
  - inversion H; subst; auto.
  - apply bind_ok in H. destruct H as [avg [H1 H]].
    apply bind_ok in H. destruct H as [y [H2 H]].
    set (mid := Qred ((lo + hi) * (1 # 2))) in *.
    assert (Hm : A <= mid) by (unfold mid; rewrite Qred_correct; lra).
    set (lo1 := if qltb y dem then mid else lo) in *. set (hi1 := if qltb y dem then hi else mid) in *.
    assert (A <= lo1) by (unfold lo1; destruct (qltb y dem); auto).
    assert (A <= hi1) by (unfold hi1; destruct (qltb y dem); auto).
    destruct (qltb (hi1 - lo1) (1 # 1000000)).
    + inversion H; subst; auto.
    + eapply IH; [| |exact H]; auto.
Qed.

Lemma st_search_total n t cold sd dem lo hi :
  st_wf t -> 0 < sd -> exists p, st_search n t cold sd dem lo hi = Ok p.
Proof.
  intros W Hsd. revert lo hi. induction n as [|n IH]; intros lo hi; cbn [st_search]; [eauto|].
  destruct (st_avg_total t (Qred ((lo + hi) * (1 # 2))) W) as [a Ha]. rewrite Ha. cbn [bind].
  destruct (qltb cold a); [rewrite qdiv_ok by lra|]; cbn [bind];
  match goal with |- context [if qltb (?x - ?y) ?z then _ else _] => destruct (qltb (x - y) z) end; eauto.
Qed.

Fixpoint pow2 (n : nat) : Q := match n with O => 1 | S k => 2 * pow2 k end.
Lemma pow2_pos n : 0 < pow2 n.
Proof. induction n as [|n IH]; simpl; lra. Qed.

Lemma st_search_inv n t sd dem lo hi lo' hi' :
  st_wf t -> st_inlet t < st_outlet t -> 0 < sd ->
  0 < lo -> lo <= hi -> hi <= st_vol t ->
  content t lo <= dem * sd -> (hi == st_vol t \/ dem * sd <= content t hi) ->
  st_search n t (st_inlet t) sd dem lo hi = Ok (lo', hi') ->
  lo <= lo' /\ lo' <= hi' /\ hi' <= hi /\
  content t lo' <= dem * sd /\ (hi' == st_vol t \/ dem * sd <= content t hi') /\
  (hi' - lo' < 1 # 1000000 \/ (hi' - lo') * pow2 n == hi - lo).
Proof.
  intros W Hio Hsd. revert lo hi. induction n as [|n IH]; intros lo hi Hlo Hlh Hhv Ilo Ihi H; cbn [st_search] in H.
  - inversion H; subst. repeat split; try lra; auto. right. simpl. lra.
  - apply bind_ok in H. destruct H as [avg [H1 H]].
    apply bind_ok in H. destruct H as [y [H2 H]].
    set (mid := Qred ((lo + hi) * (1 # 2))) in *.
    assert (Em : mid == (lo + hi) * (1 # 2)) by (unfold mid; apply Qred_correct).
    assert (Hm0 : 0 < mid) by lra. assert (HmV : mid <= st_vol t) by lra.
    assert (Hc := content_avg t mid avg W (Qlt_le_weak _ _ Hio) Hm0 HmV H1).
    assert (Hr := st_avg_range t mid avg W (Qlt_le_weak _ _ Hio) H1).
    assert (Hy : y * sd == content t mid).
    { destruct (qltb (st_inlet t) avg) eqn:Q; qbool.
      - apply qdiv_inv in H2. destruct H2 as [_ ->]. rewrite <- Hc. field. lra.
      - inversion H2; subst y. rewrite <- Hc. assert (avg == st_inlet t) by lra. rewrite H0. ring. }
    clear H2.
    assert (Step : exists lo1 hi1, lo1 = (if qltb y dem then mid else lo) /\ hi1 = (if qltb y dem then hi else mid)
       /\ 0 < lo1 /\ lo <= lo1 /\ lo1 <= hi1 /\ hi1 <= hi /\ content t lo1 <= dem * sd /\
       (hi1 == st_vol t \/ dem * sd <= content t hi1) /\ (hi1 - lo1) * 2 == hi - lo).
    { do 2 eexists. split; [reflexivity|]. split; [reflexivity|].
      destruct (qltb y dem) eqn:Q; qbool.
      - assert (y * sd <= dem * sd) by nra. repeat split; try lra; auto.
      - assert (dem * sd <= y * sd) by nra. repeat split; try lra; auto. }
    destruct Step as [lo1 [hi1 [E1 [E2 [S1 [S2 [S3 [S4 [S5 [S6 S7]]]]]]]]]].
    rewrite <- E1, <- E2 in H. clear E1 E2.
    destruct (qltb (hi1 - lo1) (1 # 1000000)) eqn:Q; qbool.
    + inversion H; subst. repeat split; try lra; auto.
    + assert (HhV : hi1 <= st_vol t) by lra.
      destruct (IH lo1 hi1 S1 S3 HhV S5 S6 H) as [A [B [C [D [E F]]]]].
      repeat split; try lra; auto.
      destruct F as [F|F]; [left; auto|right]. cbn [pow2]. rewrite <- S7, <- F. ring.
Qed.

(** The search when the standard estimate already exceeds the tank. *)
Lemma st_search_over n t sd dem lo hi lo' hi' :
  hi < lo -> st_search (S n) t (st_inlet t) sd dem lo hi = Ok (lo', hi') ->
  hi <= lo' /\ hi <= hi'.
Proof.
  intros Hlh H. eapply st_search_range; [| |exact H]; lra.
Qed.

(** ** The floor *)
Definition floor_delta (t : strat) (s : Q) : Q :=
  ((s - st_inter t) / st_slope t - 100) * st_vol t / 100.

Lemma st_floor_ok t s : st_wf t -> st_floor t (Some s) = Ok (floor_delta t s).
Proof. intros [H1 H2]. unfold st_floor. rewrite qdiv_ok by lra. reflexivity. Qed.

(** Profile whose ramp reaches [s] exactly at the top of the tank. *)
Definition floor_profile (t : strat) (s f : Q) : Q :=
  spent_profile (st_inlet t) (st_outlet t) (st_slope t) s f.

Lemma tval_floor t s f : st_wf t -> tval (set_delta t (floor_delta t s)) f == floor_profile t s f.
Proof.
  intros [H1 H2]. unfold tval, floor_profile, spent_profile, floor_delta.
  cbn [st_vol st_slope st_delta st_inter st_inlet st_outlet set_delta].
  assert (E : st_slope t * (f * 100 + ((s - st_inter t) / st_slope t - 100) * st_vol t / 100 / st_vol t * 100) + st_inter t
     == s - st_slope t * 100 * (1 - f)) by (field; lra).
  rewrite E. reflexivity.
Qed.

Lemma tval_set_max t d e f : st_wf t ->
  tval (set_delta t (qmax d e)) f == qmax (tval (set_delta t d) f) (tval (set_delta t e) f).
Proof.
  intros W. destruct (qmax_spec d e) as [[H E]|[H E]]; rewrite E.
  - pose proof (tval_delta_mono t d e f W H). qmm; lra.
  - pose proof (tval_delta_mono t e d f W (Qlt_le_weak _ _ H)). qmm; lra.
Qed.

Lemma tval_set_min t d e f : st_wf t ->
  tval (set_delta t (qmin d e)) f == qmin (tval (set_delta t d) f) (tval (set_delta t e) f).
Proof.
  intros W. destruct (qmin_spec d e) as [[H E]|[H E]]; rewrite E.
  - pose proof (tval_delta_mono t d e f W H). qmm; lra.
  - pose proof (tval_delta_mono t e d f W (Qlt_le_weak _ _ H)). qmm; lra.
Qed.

(** ** Draw *)

(** Shape of every effective draw: the profile moves up by [g] gallons, [g >= 0], floored. *)
Lemma st_draw_shape t v cold supply outlet :
  st_wf t -> cold < outlet -> 0 < v ->
  exists t' g, st_draw t v cold supply outlet = Ok t' /\
    (cold <= supply -> 0 <= g) /\
    t' = set_delta (with_temps t cold outlet)
           (qmax (st_delta t - g) (floor_delta (with_temps t cold outlet) supply)).
Proof.
  intros W Hco Hv. unfold st_draw.
  replace (Qle_bool outlet cold) with false by (symmetry; apply qleb_false; lra).
  replace (Qle_bool v 0) with false by (symmetry; apply qleb_false; lra). cbn [orb].
  set (t0 := set_outlet (set_inlet t cold) outlet).
  assert (W0 : st_wf t0) by exact W.
  rewrite qdiv_ok by lra. cbn [bind].
  set (p := v * (supply - cold) / (outlet - cold)).
  assert (Hp : cold <= supply -> 0 <= p).
  { intro. unfold p. apply qdiv_nonneg; [|lra]. nra. }
  destruct (st_avg_total t0 p W0) as [a Ha]. rewrite Ha. cbn [bind].
  destruct (Qle_bool (outlet - (1 # 1000000)) a) eqn:Q; qbool.
  - rewrite st_floor_ok by exact W. cbn [bind].
    eexists. exists p. split; [reflexivity|]. split; [exact Hp|]. reflexivity.
  - assert (Hp0 : 0 < p).
    { destruct (Qlt_le_dec 0 p) as [L|L]; [exact L|].
      exfalso. unfold st_avg in Ha. destruct (Qle_bool (qmin p (st_vol t0)) 0) eqn:E.
      - inversion Ha. subst a. cbn [st_outlet t0 set_outlet] in Q. unfold t0 in Q. cbn in Q. lra.
      - qbool. pose proof (qmin_l p (st_vol t0)). lra. }
    assert (Hsd : 0 < supply - cold).
    { assert (E : p * (outlet - cold) == v * (supply - cold)) by (unfold p; field; lra). nra. }
    destruct (st_search_total 52 t0 cold (supply - cold) v p (st_vol t0) W0 Hsd) as [[lo hi] Hs].
    rewrite Hs. cbn [bind]. rewrite st_floor_ok by exact W. cbn [bind].
    eexists. exists (qmin ((lo + hi) * (1 # 2)) (st_vol t0)). split; [reflexivity|].
    split; [|reflexivity].
    intros _. destruct W as [V1 V2].
    assert (B : 0 <= lo /\ 0 <= hi).
    { eapply st_search_range; [| |exact Hs]; [lra|]. change (0 <= st_vol t). lra. }
    apply qmin_glb; [lra|]. change (0 <= st_vol t). lra.
Qed.

Lemma st_draw_heat t v cold supply outlet :
  st_wf t -> cold < supply -> supply <= outlet -> 0 < v ->
  v * (supply - cold) <= st_vol t * (outlet - cold) ->
  exists t' g m,
    st_draw t v cold supply outlet = Ok t' /\
    0 < g <= st_vol t /\
    t' = set_delta (with_temps t cold outlet)
           (qmax (st_delta t - g) (floor_delta (with_temps t cold outlet) supply)) /\
    st_avg (with_temps t cold outlet) g = Ok m /\
    let tol := (1 # 1000000) + st_vol t / pow2 52 in
    ((v * (supply - cold) - (1 # 1000000) * st_vol t - (outlet - cold) * tol <= g * (m - cold) /\
      g * (m - cold) <= v * (supply - cold) + (outlet - cold) * tol)
     \/ (g * (m - cold) < v * (supply - cold) /\ st_vol t - tol <= g)).
Proof.
  intros W Hcs Hso Hv Hfit. unfold st_draw.
  replace (Qle_bool outlet cold) with false by (symmetry; apply qleb_false; lra).
  replace (Qle_bool v 0) with false by (symmetry; apply qleb_false; lra). cbn [orb].
  set (t0 := set_outlet (set_inlet t cold) outlet).
  change (with_temps t cold outlet) with t0.
  assert (W0 : st_wf t0) by exact W.
  assert (Ei : st_inlet t0 = cold) by reflexivity. assert (Eo : st_outlet t0 = outlet) by reflexivity.
  assert (EV : st_vol t0 = st_vol t) by reflexivity. assert (ED : st_delta t0 = st_delta t) by reflexivity.
  rewrite qdiv_ok by lra. cbn [bind].
  set (p := v * (supply - cold) / (outlet - cold)).
  assert (Ep : p * (outlet - cold) == v * (supply - cold)) by (unfold p; field; lra).
  assert (Hp0 : 0 < p). { unfold p. apply qdiv_pos; [|lra]. nra. }
  assert (HpV : p <= st_vol t). { unfold p. apply qdiv_le_iff; lra. }
  destruct W as [V1 V2].
  assert (Htol : 0 < st_vol t / pow2 52). { apply qdiv_pos; [lra|]. apply pow2_pos. }
  assert (Hio : st_inlet t0 < st_outlet t0) by (rewrite Ei, Eo; lra).
  destruct (st_avg_total t0 p W0) as [a Ha]. rewrite Ha. cbn [bind].
  pose proof (st_avg_range t0 p a W0 (Qlt_le_weak _ _ Hio) Ha) as Hr. rewrite Ei, Eo in Hr.
  destruct (Qle_bool (outlet - (1 # 1000000)) a) eqn:Q; qbool.
  - rewrite st_floor_ok by exact W0. cbn [bind].
    eexists. exists p, a. split; [reflexivity|]. split; [split; assumption|]. split; [reflexivity|].
    split; [exact Ha|]. cbv zeta. left.
    revert Htol. generalize (st_vol t / pow2 52) as e. intros e Htol.
    assert (p * (outlet - (1 # 1000000) - cold) <= p * (a - cold)) by nra.
    assert (p * (a - cold) <= p * (outlet - cold)) by nra.
    assert (0 <= (outlet - cold) * ((1 # 1000000) + e)) by nra.
    split; lra.
  - assert (Hsd : 0 < supply - cold) by lra.
    destruct (st_search_total 52 t0 cold (supply - cold) v p (st_vol t0) W0 Hsd) as [[lo hi] Hs].
    rewrite Hs. cbn [bind]. rewrite st_floor_ok by exact W0. cbn [bind].
    rewrite <- Ei in Hs at 1.
    destruct (st_search_inv 52 t0 (supply - cold) v p (st_vol t0) lo hi W0 Hio Hsd Hp0) as [A [B [C [D [E F]]]]].
    + rewrite EV; exact HpV.
    + lra.
    + rewrite <- (content_avg t0 p a W0 (Qlt_le_weak _ _ Hio) Hp0 HpV Ha). rewrite Ei.
      assert (p * (a - cold) <= p * (outlet - cold)) by nra. lra.
    + left; reflexivity.
    + exact Hs.
    + rewrite EV in *.
      set (g := qmin ((lo + hi) * (1 # 2)) (st_vol t)).
      assert (Eg : g == (lo + hi) * (1 # 2)) by (unfold g; qmm; lra).
      destruct (st_avg_total t0 g W0) as [m Hm].
      assert (Hg0 : 0 < g) by lra. assert (HgV : g <= st_vol t) by lra.
      eexists. exists g, m. split; [reflexivity|]. split; [split; assumption|]. split; [reflexivity|].
      split; [exact Hm|]. cbv zeta.
      pose proof (content_avg t0 g m W0 (Qlt_le_weak _ _ Hio) Hg0 HgV Hm) as Hc. rewrite Ei in Hc.
      set (tol := (1 # 1000000) + st_vol t / pow2 52).
      assert (Hgap : hi - lo <= tol).
      { unfold tol. destruct F as [F|F]; [lra|].
        assert (hi - lo <= st_vol t / pow2 52); [|lra].
        apply qle_div_iff; [apply pow2_pos|]. lra. }
      assert (Hlg : lo <= g) by lra. assert (Hgh : g <= hi) by lra.
      destruct (content_lip t0 lo g W0 (Qlt_le_weak _ _ Hio) Hlg) as [L1 L2].
      destruct (content_lip t0 g hi W0 (Qlt_le_weak _ _ Hio) Hgh) as [L3 L4].
      rewrite Ei, Eo in L2, L4.
      destruct (Qlt_le_dec (content t0 hi) (v * (supply - cold))) as [Lt|Ge].
      * right. destruct E as [E|E]; [|lra]. split; [lra|]. lra.
      * left. assert ((outlet - cold) * (g - lo) <= (outlet - cold) * tol) by nra.
        assert ((outlet - cold) * (hi - g) <= (outlet - cold) * tol) by nra.
        split; lra.
Qed.

(** ** Heat and recirculation as shifts of the profile *)
Lemma tval_at_cap t h f : st_wf t -> st_outlet t == h -> st_inlet t <= h -> 0 <= f ->
  tval (set_delta t ((h - st_inter t) / st_slope t * st_vol t / 100)) f == h.
Proof.
  intros [H1 H2] Ho Hi Hf. unfold tval.
  cbn [st_vol st_slope st_delta st_inter st_inlet st_outlet set_delta].
  assert (E : st_slope t * (f * 100 + (h - st_inter t) / st_slope t * st_vol t / 100 / st_vol t * 100) + st_inter t
     == h + st_slope t * f * 100) by (field; lra).
  rewrite E. assert (0 <= st_slope t * f) by nra. rewrite Ho. qmm; lra.
Qed.

Lemma st_heat_shape t k d h : st_wf t ->
  exists t', st_heat t k d h = Ok t' /\ st_vol t' = st_vol t /\ st_slope t' = st_slope t /\
   st_inlet t' = st_inlet t /\ st_outlet t' = h /\ st_inter t' = st_inter t /\
   ((k <= 0 \/ h <= st_inlet t) -> t' = set_outlet t h) /\
   (0 < k -> st_inlet t < h ->
     exists v, v * (rho_cp * (h - st_inlet t)) == k * 1000 * d / 60 /\
       forall f, 0 <= f -> tval t' f == tval (set_outlet t h) (f + v / st_vol t)).
Proof.
  intros [V1 V2]. unfold st_heat.
  destruct (Qle_bool k 0) eqn:E1; [|destruct (Qle_bool h (st_inlet (set_outlet t h))) eqn:E2]; qbool; cbn [orb].
  - eexists. split; [reflexivity|]. repeat split; auto. intros; exfalso; lra.
  - eexists. split; [reflexivity|]. repeat split; auto. cbn in E2. intros; exfalso; lra.
  - cbn in E2. cbn [st_inlet set_outlet st_delta st_inter st_vol st_slope].
    assert (Hr : 0 < rho_cp) by reflexivity.
    assert (Hd : 0 < rho_cp * (h - st_inlet t)) by nra.
    rewrite !qdiv_ok by lra. cbn [bind].
    eexists. split; [reflexivity|]. repeat split; auto.
    + intros [?|?]; exfalso; lra.
    + intros _ _. set (v := k * d / 60 * 1000 / (rho_cp * (h - st_inlet t))).
      exists v. split; [unfold v; field; lra|].
      intros f Hf.
      set (t0 := set_outlet t h).
      assert (W0 : st_wf t0) by (split; assumption).
      change (tval (set_delta t0 (qmin (st_delta t0 + v) ((h - st_inter t0) / st_slope t0 * st_vol t0 / 100))) f
        == tval t0 (f + v / st_vol t0)).
      rewrite tval_set_min by exact W0.
      rewrite tval_at_cap; [|exact W0|reflexivity|cbn; lra|exact Hf].
      assert (Es : tval (set_delta t0 (st_delta t0 + v)) f == tval t0 (f + v / st_vol t0)).
      { unfold tval; cbn [st_vol st_slope st_delta st_inter st_inlet st_outlet set_delta].
        assert (E : st_slope t0 * (f * 100 + (st_delta t0 + v) / st_vol t0 * 100) + st_inter t0
           == st_slope t0 * ((f + v / st_vol t0) * 100 + st_delta t0 / st_vol t0 * 100) + st_inter t0) by (field; cbn; lra).
        rewrite E. reflexivity. }
      rewrite Es.
      assert (B : tval t0 (f + v / st_vol t0) <= h).
      { apply (tval_range t0). cbn. lra. }
      revert B. generalize (tval t0 (f + v / st_vol t0)) as x. intros x B. qmm; lra.
Qed.

Lemma st_recirc_shape t fl r d s : st_wf t ->
  exists t', st_recirc t fl r d s = Ok t' /\ st_vol t' = st_vol t /\ st_slope t' = st_slope t /\
   st_inlet t' = st_inlet t /\ st_outlet t' = st_outlet t /\ st_inter t' = st_inter t /\
   (st_outlet t <= st_inlet t -> t' = t) /\
   (st_inlet t < st_outlet t ->
     exists n, n * (rho_cp * (st_outlet t - st_inlet t))
          == fl * d * rho_cp * (match s with Some x => x | None => st_outlet t end - r) /\
       t' = set_delta t (st_delta t - n) /\
       forall f, tval t' f == tval t (f - n / st_vol t)).
Proof.
  intros W. pose proof W as [V1 V2]. unfold st_recirc.
  destruct (Qle_bool (st_outlet t) (st_inlet t)) eqn:E; qbool.
  - eexists. split; [reflexivity|]. repeat split; auto. intros; exfalso; lra.
  - assert (Hr : 0 < rho_cp) by reflexivity.
    assert (Hd : 0 < rho_cp * (st_outlet t - st_inlet t)) by nra.
    rewrite qdiv_ok by lra. cbn [bind].
    eexists. split; [reflexivity|]. repeat split; auto.
    + intros; exfalso; lra.
    + intros _. eexists. split; [|split; [reflexivity|]].
      * field. lra.
      * intro f. apply tval_shift. exact W.
Qed.

Lemma st_draw_physical_shape t g c s : st_wf t ->
  exists t', st_draw_physical t g c s = Ok t' /\ 
    (g <= 0 -> t' = set_inlet t c) /\
    (0 < g -> t' = set_delta (set_inlet t c)
       (qmax (st_delta t - g) (floor_delta (set_inlet t c) (match s with Some x => x | None => c end)))).
Proof.
  intros W. pose proof W as [V1 V2]. unfold st_draw_physical.
  destruct (qltb 0 g) eqn:E; qbool.
  - unfold st_floor. rewrite qdiv_ok by (cbn; lra). cbn [bind].
    eexists. split; [reflexivity|]. split; [intros; exfalso; lra|]. intros _.
    destruct s; reflexivity.
  - eexists. split; [reflexivity|]. split; [reflexivity|]. intros; exfalso; lra.
Qed.

(** ** Histories *)
Lemma st_step_ok t o : st_wf t -> exists t', st_step t o = Ok t' /\ 
  st_vol t' = st_vol t /\ st_slope t' = st_slope t /\
  st_inlet t' = upd (st_inlet t) (inlet_of o) /\ st_outlet t' = upd (st_outlet t) (outlet_of o).
Proof.
  intros W. destruct o as [s c p|v c s h|k d h|fl r d s|g c s]; cbn [st_step inlet_of outlet_of upd].
  - eexists. split; [reflexivity|]. repeat split.
  - destruct (Qlt_le_dec c h) as [H|H]; [destruct (Qlt_le_dec 0 v) as [H'|H']|].
    + destruct (st_draw_shape t v c s h W H H') as [t' [g [E [_ ->]]]].
      eexists. split; [exact E|]. repeat split.
    + unfold st_draw. replace (Qle_bool v 0) with true by (symmetry; apply qleb_true; lra).
      rewrite orb_true_r. eexists. split; [reflexivity|]. repeat split.
    + unfold st_draw. replace (Qle_bool h c) with true by (symmetry; apply qleb_true; lra).
      cbn [orb]. eexists. split; [reflexivity|]. repeat split.
  - destruct (st_heat_shape t k d h W) as [t' [E [A [B [C [D _]]]]]]. exists t'. auto.
  - destruct (st_recirc_shape t fl r d s W) as [t' [E [A [B [C [D _]]]]]]. exists t'. auto.
  - destruct (st_draw_physical_shape t g c s W) as [t' [E [A B]]].
    exists t'. split; [exact E|].
    destruct (Qlt_le_dec 0 g) as [H|H]; [rewrite (B H)|rewrite (A H)]; repeat split.
Qed.

Lemma st_run_ok os : forall t, st_wf t -> exists t', st_run t os = Ok t' /\ st_wf t' /\
  st_vol t' = st_vol t /\ st_slope t' = st_slope t /\
  st_inlet t' = fold_left (fun a o => upd a (inlet_of o)) os (st_inlet t) /\
  st_outlet t' = fold_left (fun a o => upd a (outlet_of o)) os (st_outlet t).
Proof.
  induction os as [|o os IH]; intros t W; cbn [st_run fold_left].
  - eexists. split; [reflexivity|]. repeat split; auto; apply W.
  - destruct (st_step_ok t o W) as [t1 [E [A [B [C D]]]]].
    rewrite E. cbn [bind].
    assert (W1 : st_wf t1) by (unfold st_wf in *; rewrite A, B; exact W).
    destruct (IH t1 W1) as [t2 [E2 [W2 [F [G [H I]]]]]].
    exists t2. rewrite C in H. rewrite D in I. rewrite A in F. rewrite B in G.
    split; [exact E2|]. split; [exact W2|]. auto.
Qed.

(** ** From the model's profile to an arbitrary observer's *)
Lemma profile_tval t T : st_wf t -> profile t T -> forall f, T f = tval t f.
Proof. intros W H f. pose proof (st_temp_ok t f W) as E. rewrite (H f) in E. inversion E. reflexivity. Qed.

Lemma profile_exists t : st_wf t -> profile t (tval t).
Proof. intros W f. apply st_temp_ok. exact W. Qed.

Lemma lower_sum_ext T U a pts : (forall x, T x = U x) -> lower_sum T a pts = lower_sum U a pts.
Proof. intros H. revert a. induction pts as [|x r IH]; intro a; simpl; [reflexivity|]. rewrite H, IH. reflexivity. Qed.
Lemma upper_sum_ext T U a pts : (forall x, T x = U x) -> upper_sum T a pts = upper_sum U a pts.
Proof. intros H. revert a. induction pts as [|x r IH]; intro a; simpl; [reflexivity|]. rewrite H, IH. reflexivity. Qed.
Lemma is_mean_ext T U a b m : (forall x, T x = U x) -> is_mean T a b m -> is_mean U a b m.
Proof.
  intros H M pts P. rewrite <- (lower_sum_ext T U a pts H), <- (upper_sum_ext T U a pts H). exact (M pts P).
Qed.
Lemma is_level_length_ext T U a b s m : (forall x, T x = U x) -> is_level_length T a b s m -> is_level_length U a b s m.
Proof.
  intros H [x [A [B [C D]]]]. exists x. repeat split; try tauto.
  - intros y. rewrite <- H. apply C.
  - intros y. rewrite <- H. apply D.
Qed.

(** ** The property lemmas *)
Lemma c20 vol slope ops : 0 < vol -> 0 < slope ->
  exists t T, st_run (st_new vol slope) ops = Ok t /\ profile t T /\
    (forall f g, f <= g -> T f <= T g) /\
    (current_inlet ops <= current_outlet ops ->
       forall f, current_inlet ops <= T f /\ T f <= current_outlet ops) /\
    (current_outlet ops < current_inlet ops -> forall f, T f == current_inlet ops).
Proof.
  intros Hv Hs.
  destruct (st_run_ok ops (st_new vol slope) (conj Hv Hs)) as [t [E [W [_ [_ [I O]]]]]].
  exists t, (tval t). split; [exact E|]. split; [apply profile_exists; exact W|].
  split; [intros; apply tval_mono; assumption|].
  change (fold_left (fun a o => upd a (inlet_of o)) ops (st_inlet (st_new vol slope))) with (current_inlet ops) in I.
  change (fold_left (fun a o => upd a (outlet_of o)) ops (st_outlet (st_new vol slope))) with (current_outlet ops) in O.
  rewrite <- I, <- O. split.
  - intros H f. apply tval_range. exact H.
  - intros H f. unfold tval. qmm; lra.
Qed.

Lemma c21_mean t T g : st_wf t -> profile t T -> st_inlet t <= st_outlet t -> 0 < g -> g <= st_vol t ->
  exists a, st_avg t g = Ok a /\ is_mean T (1 - g / st_vol t) 1 a /\
    (forall a', is_mean T (1 - g / st_vol t) 1 a' -> a' == a) /\
    st_inlet t <= a /\ a <= st_outlet t.
Proof.
  intros W HT Hio Hg Hv. destruct (st_avg_total t g W) as [a Ha]. exists a. split; [exact Ha|].
  pose proof (profile_tval t T W HT) as ET.
  assert (M : is_mean T (1 - g / st_vol t) 1 a).
  { apply (is_mean_ext (tval t)); [intro; symmetry; apply ET|]. apply st_avg_mean; assumption. }
  split; [exact M|]. split.
  - intros a' M'. eapply mean_unique; [| |exact M'|exact M].
    + assert (0 < g / st_vol t) by (apply qdiv_pos; [lra|apply W]). lra.
    + intros x y _ Hxy _. rewrite !ET. apply tval_mono; assumption.
  - apply (st_avg_range t g a W Hio Ha).
Qed.

Lemma c22_level t T s : st_wf t -> profile t T -> st_inlet t < s -> s <= st_outlet t ->
  exists u m, st_usable t s = Ok u /\ is_level_length T 0 1 s m /\ u == m * st_vol t.
Proof.
  intros W HT H1 H2. destruct (st_usable_ok t s W) as [u [Hu _]].
  destruct (st_usable_level t s u W H1 H2 Hu) as [m [Em Hm]].
  exists u, m. split; [exact Hu|]. split; [|exact Em].
  apply (is_level_length_ext (tval t)); [intro; symmetry; apply profile_tval; assumption|exact Hm].
Qed.

Lemma tval_ext t t' : st_vol t = st_vol t' -> st_slope t = st_slope t' -> st_delta t = st_delta t' ->
  st_inter t = st_inter t' -> st_inlet t = st_inlet t' -> st_outlet t = st_outlet t' -> forall f, tval t f = tval t' f.
Proof. intros. unfold tval. congruence. Qed.

Lemma draw_profile t g cold outlet supply f : st_wf t ->
  tval (set_delta (with_temps t cold outlet) (qmax (st_delta t - g) (floor_delta (with_temps t cold outlet) supply))) f
  == qmax (tval (with_temps t cold outlet) (f - g / st_vol t)) (spent_profile cold outlet (st_slope t) supply f).
Proof.
  intros W. rewrite tval_set_max by exact W. rewrite tval_floor by exact W.
  change (st_delta t) with (st_delta (with_temps t cold outlet)).
  rewrite tval_shift by exact W. reflexivity.
Qed.

Lemma c23_draw t v cold supply outlet T0 :
  st_wf t -> cold < supply -> supply <= outlet -> 0 < v ->
  v * (supply - cold) <= st_vol t * (outlet - cold) ->
  profile (set_outlet (set_inlet t cold) outlet) T0 ->
  exists t' T' g m,
    st_draw t v cold supply outlet = Ok t' /\ profile t' T' /\ 0 < g <= st_vol t /\
    (forall f, T' f == qmax (T0 (f - g / st_vol t)) (spent_profile cold outlet (st_slope t) supply f)) /\
    is_mean T0 (1 - g / st_vol t) 1 m /\
    let tol := (1 # 1000000) + st_vol t / inject_Z (2 ^ 52) in
    ((v * (supply - cold) - (1 # 1000000) * st_vol t - (outlet - cold) * tol <= g * (m - cold) /\
      g * (m - cold) <= v * (supply - cold) + (outlet - cold) * tol)
     \/ (g * (m - cold) < v * (supply - cold) /\ st_vol t - tol <= g)).
Proof.
  intros W Hcs Hso Hv Hfit HT0.
  destruct (st_draw_heat t v cold supply outlet W Hcs Hso Hv Hfit) as [t' [g [m [E [Hg [Et' [Hm K]]]]]]].
  assert (W' : st_wf t') by (rewrite Et'; exact W).
  pose proof (profile_tval (with_temps t cold outlet) T0 W HT0) as ET.
  exists t', (tval t'), g, m. split; [exact E|]. split; [apply profile_exists; exact W'|].
  split; [exact Hg|]. split; [|split].
  - intro f. rewrite ET. rewrite Et'. apply draw_profile. exact W.
  - apply (is_mean_ext (tval (with_temps t cold outlet))); [intro; symmetry; apply ET|].
    apply (st_avg_mean (with_temps t cold outlet) g m); try apply Hg; auto. cbn. lra.
  - cbv zeta in K |- *.
    assert (E2 : st_vol t / pow2 52 == st_vol t / inject_Z (2 ^ 52)).
    { assert (pow2 52 == inject_Z (2 ^ 52)) by reflexivity. rewrite H. reflexivity. }
    rewrite <- E2. exact K.
Qed.

Lemma c23_draw_over t v cold supply outlet T0 :
  st_wf t -> cold < supply -> supply <= outlet -> 0 < v ->
  st_vol t * (outlet - cold) < v * (supply - cold) ->
  profile (set_outlet (set_inlet t cold) outlet) T0 ->
  exists t' T' g,
    st_draw t v cold supply outlet = Ok t' /\ profile t' T' /\ st_vol t <= g /\
    (forall f, T' f == qmax (T0 (f - g / st_vol t)) (spent_profile cold outlet (st_slope t) supply f)).
Proof.
  intros W Hcs Hso Hv Hfit HT0.
  pose proof (profile_tval (with_temps t cold outlet) T0 W HT0) as ET.
  assert (S : exists t' g, st_draw t v cold supply outlet = Ok t' /\ st_vol t <= g /\
     t' = set_delta (with_temps t cold outlet) (qmax (st_delta t - g) (floor_delta (with_temps t cold outlet) supply))).
  { unfold st_draw.
    replace (Qle_bool outlet cold) with false by (symmetry; apply qleb_false; lra).
    replace (Qle_bool v 0) with false by (symmetry; apply qleb_false; lra). cbn [orb].
    set (t0 := set_outlet (set_inlet t cold) outlet).
    assert (W0 : st_wf t0) by exact W.
    rewrite qdiv_ok by lra. cbn [bind].
    set (p := v * (supply - cold) / (outlet - cold)).
    assert (Hp : st_vol t < p) by (unfold p; apply qlt_div_iff; lra).
    destruct (st_avg_total t0 p W0) as [a Ha]. rewrite Ha. cbn [bind].
    destruct (Qle_bool (outlet - (1 # 1000000)) a) eqn:Q; qbool.
    - rewrite st_floor_ok by exact W. cbn [bind]. eexists. exists p. split; [reflexivity|].
      split; [lra|reflexivity].
    - destruct (st_search_total 52 t0 cold (supply - cold) v p (st_vol t0) W0) as [[lo hi] Hs]; [lra|].
      rewrite Hs. cbn [bind]. rewrite st_floor_ok by exact W. cbn [bind].
      eexists. exists (qmin ((lo + hi) * (1 # 2)) (st_vol t0)). split; [reflexivity|]. split; [|reflexivity].
      change cold with (st_inlet t0) in Hs at 1.
      apply st_search_over in Hs; [|exact Hp].
      change (st_vol t0) with (st_vol t) in *. apply qmin_glb; lra. }
  destruct S as [t' [g [E [Hg Et']]]].
  exists t', (tval t'), g. split; [exact E|].
  split; [apply profile_exists; rewrite Et'; exact W|]. split; [exact Hg|].
  intro f. rewrite ET. rewrite Et'. apply draw_profile. exact W.
Qed.

Lemma set_outlet_mono t h f : st_wf t -> st_outlet t <= h -> tval t f <= tval (set_outlet t h) f.
Proof. intros W H. unfold tval. cbn [st_vol st_slope st_delta st_inter st_inlet st_outlet set_outlet]. qmm; lra. Qed.

Lemma c24_heat t T k d h : st_wf t -> profile t T -> 0 <= d -> st_outlet t <= h ->
  exists t' T', st_heat t k d h = Ok t' /\ profile t' T' /\
    (forall f, 0 <= f -> f <= 1 -> T f <= T' f /\ T' f <= qmax h (st_inlet t)).
Proof.
  intros W HT Hd Hh. pose proof (profile_tval t T W HT) as ET.
  destruct (st_heat_shape t k d h W) as [t' [E [A [B [C [D [F [G H]]]]]]]].
  assert (W' : st_wf t') by (unfold st_wf; rewrite A, B; exact W).
  exists t', (tval t'). split; [exact E|]. split; [apply profile_exists; exact W'|].
  intros f Hf _. rewrite ET. split.
  - assert (M := set_outlet_mono t h f W Hh).
    destruct (Qlt_le_dec 0 k) as [K|K]; [destruct (Qlt_le_dec (st_inlet t) h) as [L|L]|].
    + destruct (H K L) as [v [Ev Hv]]. rewrite (Hv f Hf).
      assert (Hv0 : 0 <= v).
      { assert (Hr : 0 < rho_cp) by reflexivity.
        assert (0 <= k * 1000 * d / 60) by (apply qdiv_nonneg; [nra|lra]).
        assert (0 < rho_cp * (h - st_inlet t)) by nra.
        destruct (Qlt_le_dec v 0); [|assumption]. nra. }
      assert (0 <= v / st_vol t) by (apply qdiv_nonneg; [lra|apply W]).
      assert (tval (set_outlet t h) f <= tval (set_outlet t h) (f + v / st_vol t)) by (apply tval_mono; [exact W|lra]).
      lra.
    + rewrite G by auto. exact M.
    + rewrite G by auto. exact M.
  - unfold tval. rewrite C, D. qmm; lra.
Qed.

Lemma c24_heat_amount t T0 k d h : st_wf t -> 0 < k -> st_inlet t < h ->
  profile (set_outlet t h) T0 ->
  exists t' T' v, st_heat t k d h = Ok t' /\ profile t' T' /\
    v * (rho_cp * (h - st_inlet t)) == k * 1000 * d / 60 /\
    forall f, 0 <= f -> T' f == T0 (f + v / st_vol t).
Proof.
  intros W Hk Hi HT.
  destruct (st_heat_shape t k d h W) as [t' [E [A [B [C [D [F [G H]]]]]]]].
  assert (W' : st_wf t') by (unfold st_wf; rewrite A, B; exact W).
  destruct (H Hk Hi) as [v [Ev Hv]].
  exists t', (tval t'), v. split; [exact E|]. split; [apply profile_exists; exact W'|]. split; [exact Ev|].
  intros f Hf. rewrite (Hv f Hf). rewrite (profile_tval (set_outlet t h) T0 W HT). reflexivity.
Qed.

Lemma c24_recirc t T fl r d s : st_wf t -> profile t T -> 0 <= fl * d ->
  r <= match s with Some x => x | None => st_outlet t end ->
  exists t' T' n, st_recirc t fl r d s = Ok t' /\ profile t' T' /\
    (forall f, T' f <= T f) /\
    (st_inlet t < st_outlet t ->
      n * (rho_cp * (st_outlet t - st_inlet t))
        == fl * d * rho_cp * (match s with Some x => x | None => st_outlet t end - r) /\
      forall f, T' f == T (f - n / st_vol t)).
Proof.
  intros W HT Hfl Hr. pose proof (profile_tval t T W HT) as ET.
  destruct (st_recirc_shape t fl r d s W) as [t' [E [A [B [C [D [F [G H]]]]]]]].
  assert (W' : st_wf t') by (unfold st_wf; rewrite A, B; exact W).
  exists t', (tval t').
  destruct (Qlt_le_dec (st_inlet t) (st_outlet t)) as [L|L].
  - destruct (H L) as [n [En [_ Hn]]]. exists n.
    split; [exact E|]. split; [apply profile_exists; exact W'|]. split.
    + intro f. rewrite ET, Hn. apply tval_mono; [exact W|].
      assert (Hrc : 0 < rho_cp) by reflexivity.
      assert (0 < rho_cp * (st_outlet t - st_inlet t)) by nra.
      set (x := match s with Some x => x | None => st_outlet t end) in *.
      assert (0 <= fl * d * rho_cp * (x - r)).
      { apply qmul_nonneg; [apply qmul_nonneg; lra|lra]. }
      assert (0 <= n) by (destruct (Qlt_le_dec n 0); [nra|assumption]).
      assert (0 <= n / st_vol t) by (apply qdiv_nonneg; [lra|apply W]). lra.
    + intros _. split; [exact En|]. intro f. rewrite ET. apply Hn.
  - exists 0. split; [exact E|]. split; [apply profile_exists; exact W'|]. split.
    + intro f. rewrite ET, (G L). lra.
    + intros; exfalso; lra.
Qed.

Lemma with_temps_antitone t c h f : st_wf t -> c <= st_inlet t -> h <= st_outlet t ->
  tval (with_temps t c h) f <= tval t f.
Proof. intros W H1 H2. unfold tval. cbn [st_vol st_slope st_delta st_inter st_inlet st_outlet set_outlet set_inlet with_temps]. qmm; lra. Qed.

Lemma c24_draw t T v cold supply outlet : st_wf t -> profile t T ->
  cold <= st_inlet t -> outlet <= st_outlet t -> st_inlet t < supply -> supply <= T 1 ->
  exists t' T', st_draw t v cold supply outlet = Ok t' /\ profile t' T' /\ (forall f, T' f <= T f).
Proof.
  intros W HT Hc Ho Hs HT1. pose proof (profile_tval t T W HT) as ET.
  destruct (Qlt_le_dec cold outlet) as [H|H]; [destruct (Qlt_le_dec 0 v) as [H'|H']|].
  - destruct (st_draw_shape t v cold supply outlet W H H') as [t' [g [E [Hg Et']]]].
    exists t', (tval t'). split; [exact E|].
    split; [apply profile_exists; rewrite Et'; exact W|].
    intro f. rewrite ET, Et'.
    apply Qle_trans with (tval (with_temps t cold outlet) f); [|apply with_temps_antitone; assumption].
    assert (Hd : qmax (st_delta t - g) (floor_delta (with_temps t cold outlet) supply) <= st_delta (with_temps t cold outlet)).
    { apply qmax_lub.
      - cbn. assert (0 <= g) by (apply Hg; lra). lra.
      - cbn. unfold floor_delta. cbn [st_vol st_slope st_delta st_inter st_inlet st_outlet set_outlet set_inlet with_temps].
        rewrite ET in HT1. unfold tval in HT1. pose proof W as [V1 V2].
        assert (L : supply <= st_slope t * (1 * 100 + st_delta t / st_vol t * 100) + st_inter t).
        { revert HT1. qmm; intros; lra. }
        assert (Ea : st_delta t == ((st_slope t * (1 * 100 + st_delta t / st_vol t * 100) + st_inter t - st_inter t) / st_slope t - 100) * st_vol t / 100) by (field; lra).
        rewrite Ea at 1.
        assert ((supply - st_inter t) / st_slope t <= (st_slope t * (1 * 100 + st_delta t / st_vol t * 100) + st_inter t - st_inter t) / st_slope t).
        { apply qdiv_le_iff; [exact V2|].
          assert (E2 : (st_slope t * (1 * 100 + st_delta t / st_vol t * 100) + st_inter t - st_inter t) / st_slope t * st_slope t == st_slope t * (1 * 100 + st_delta t / st_vol t * 100) + st_inter t - st_inter t) by (field; lra).
          rewrite E2. lra. }
        revert H0. generalize ((st_slope t * (1 * 100 + st_delta t / st_vol t * 100) + st_inter t - st_inter t) / st_slope t) as y.
        generalize ((supply - st_inter t) / st_slope t) as x. intros x y Hxy.
        unfold Qdiv. change (/ 100) with (1 # 100). nra. }
    pose proof (tval_delta_mono (with_temps t cold outlet) _ _ f W Hd) as M.
    exact M.
  - unfold st_draw. replace (Qle_bool v 0) with true by (symmetry; apply qleb_true; lra).
    rewrite orb_true_r. eexists. eexists. split; [reflexivity|]. split; [apply profile_exists; exact W|].
    intro f. rewrite ET. apply with_temps_antitone; assumption.
  - unfold st_draw. replace (Qle_bool outlet cold) with true by (symmetry; apply qleb_true; lra).
    cbn [orb]. eexists. eexists. split; [reflexivity|]. split; [apply profile_exists; exact W|].
    intro f. rewrite ET. apply with_temps_antitone; assumption.
Qed.
