(** The average temperature of the hot part of a tank at its on-trigger. *)
From Verif Require Import Prelude S_Integral L_Integral M_Building L_Building M_Heater M_Sizing S_Sizing L_Sizing2.
Open Scope Q_scope.

Definition tp_F (p on m sto x : Q) : Q :=
  let ht := p + (sto - on) / m in
  if Qle_bool x ht then on * x + m * (x - p) * (x - p) * (1 # 2)
  else on * ht + m * (ht - p) * (ht - p) * (1 # 2) + sto * (x - ht).

Lemma tp_cases p on m sto x : 0 < m -> let ht := p + (sto - on) / m in
  (x <= ht -> trigger_profile p on m sto x == on + (x - p) * m) /\ (ht <= x -> trigger_profile p on m sto x == sto).
Proof.
  intros Hm ht. assert (E : (ht - p) * m == sto - on) by (unfold ht; field; lra). unfold trigger_profile.
  split; intro L; destruct (qmin_spec sto (on + (x - p) * m)) as [[U V]|[U V]]; rewrite V; try reflexivity.
  - pose proof (qmul_nonneg (ht - x) m ltac:(lra) ltac:(lra)) as P. assert (X : (ht - x) * m == (ht - p) * m - (x - p) * m) by ring. lra.
  - pose proof (qmul_nonneg (x - ht) m ltac:(lra) ltac:(lra)) as P. assert (X : (x - ht) * m == (x - p) * m - (ht - p) * m) by ring. lra.
Qed.

Lemma tp_squeezes p on m sto a b : 0 < m -> squeezes (trigger_profile p on m sto) (tp_F p on m sto) a b.
Proof.
  intros Hm x y H1 H2 H3. destruct (tp_cases p on m sto x Hm) as [X1 X2]. destruct (tp_cases p on m sto y Hm) as [Y1 Y2]. cbv zeta in *.
  unfold tp_F. cbv zeta. set (ht := p + (sto - on) / m) in *. assert (E : (ht - p) * m == sto - on) by (unfold ht; field; lra). clearbody ht.
  assert (SQ : forall u v, u <= v -> 0 <= m * ((v - u) * (v - u)) * (1 # 2)).
  { intros u v L. apply qmul_nonneg; [|discriminate]. apply qmul_nonneg; [lra|]. apply qmul_nonneg; lra. }
  destruct (Qle_bool x ht) eqn:CX; destruct (Qle_bool y ht) eqn:CY; qbool.
  - rewrite X1, Y1 by assumption. pose proof (SQ x y H2). split.
    + assert (Z : on * y + m * (y - p) * (y - p) * (1 # 2) - (on * x + m * (x - p) * (x - p) * (1 # 2)) - (y - x) * (on + (x - p) * m) == m * ((y - x) * (y - x)) * (1 # 2)) by ring. lra.
    + assert (Z : (y - x) * (on + (y - p) * m) - (on * y + m * (y - p) * (y - p) * (1 # 2) - (on * x + m * (x - p) * (x - p) * (1 # 2))) == m * ((y - x) * (y - x)) * (1 # 2)) by ring. lra.
  - rewrite X1 by assumption. rewrite Y2 by lra. pose proof (SQ x ht CX) as S1. assert (ES : sto == on + (ht - p) * m) by lra.
    pose proof (qmul_nonneg (y - ht) (m * (ht - x)) ltac:(lra) ltac:(apply qmul_nonneg; lra)) as S2.
    split.
    + assert (Z : on * ht + m * (ht - p) * (ht - p) * (1 # 2) + sto * (y - ht) - (on * x + m * (x - p) * (x - p) * (1 # 2)) - (y - x) * (on + (x - p) * m)
        == m * ((ht - x) * (ht - x)) * (1 # 2) + (y - ht) * (m * (ht - x))) by (rewrite ES; ring). lra.
    + assert (Z : (y - x) * sto - (on * ht + m * (ht - p) * (ht - p) * (1 # 2) + sto * (y - ht) - (on * x + m * (x - p) * (x - p) * (1 # 2)))
        == m * ((ht - x) * (ht - x)) * (1 # 2)) by (rewrite ES; ring). lra.
  - lra.
  - rewrite X2, Y2 by lra. split.
    + assert (Z : on * ht + m * (ht - p) * (ht - p) * (1 # 2) + sto * (y - ht) - (on * ht + m * (ht - p) * (ht - p) * (1 # 2) + sto * (x - ht)) == (y - x) * sto) by ring. lra.
    + assert (Z : on * ht + m * (ht - p) * (ht - p) * (1 # 2) + sto * (y - ht) - (on * ht + m * (ht - p) * (ht - p) * (1 # 2) + sto * (x - ht)) == (y - x) * sto) by ring. lra.
Qed.

Lemma avg_hot_mean s of_ on m x : 0 < m -> 0 <= of_ -> on <= dh_storage s -> dh_supply s <= dh_storage s ->
  avg_hot_temp s of_ on m = Ok x ->
  let bottom := qmax 0 (of_ * 100 + (dh_supply s - on) / m) in
  (bottom < 100 -> is_mean (trigger_profile (of_ * 100) on m (dh_storage s)) bottom 100 x) /\
  (100 <= bottom -> x = dh_supply s).
Proof.
  intros Hm Ho H1 H2 H. unfold avg_hot_temp in H. rewrite !(qdiv_ok _ m) in H by lra. cbn [bind] in H. cbv zeta in H.
  set (p := of_ * 100) in *. set (sup := dh_supply s) in *. set (sto := dh_storage s) in *. cbv zeta.
  set (hs := p + (sup - on) / m) in *.
  assert (P0 : 0 <= p) by (unfold p; lra).
  assert (EH : (hs - p) * m == sup - on) by (unfold hs; field; lra).
  pose proof (tp_squeezes p on m sto (qmax 0 hs) 100 Hm) as SQ. apply integral_of_antiderivative in SQ. unfold tp_F in SQ. cbv zeta in SQ.
  set (ht := p + (sto - on) / m) in *.
  assert (ET : (ht - p) * m == sto - on) by (unfold ht; field; lra).
  assert (HT : 0 <= ht) by (unfold ht; assert (0 <= (sto - on) / m) by (apply qdiv_nonneg; lra); lra).
  assert (HH : hs <= ht). { apply Qmult_le_r with m; [exact Hm|]. lra. }
  clearbody hs ht p.
  assert (BB : exists bot bt, qmax 0 hs = bot /\ 0 <= bot /\ bot <= ht /\ (100 <= hs <-> 100 <= bot) /\
     (if qltb hs 0 then on - p * m else sup) == bt /\ bt == on + (bot - p) * m).
  { destruct (qmax_spec 0 hs) as [[U V]|[U V]]; rewrite V.
    - exists hs, sup. destruct (qltb hs 0) eqn:E; qbool; [lra|]. repeat split; try lra.
    - exists 0, (on - p * m). destruct (qltb hs 0) eqn:E; qbool; [|lra]. repeat split; try lra. }
  destruct BB as (bot & bt & B0 & B1 & B2 & B3 & B4 & B5). rewrite B0 in *.
  destruct (Qle_bool 100 hs) eqn:E1; qbool.
  - apply ok_inj in H. subst x. split; [intro X; apply B3 in E1; lra|reflexivity].
  - assert (BL : bot < 100) by (destruct (Qlt_le_dec bot 100) as [G|G]; [exact G|apply B3 in G; lra]).
    split; [intros _|intro X; lra]. unfold is_mean.
    set (tr := qmin 100 ht - bot) in *. set (hg := qmax 0 (100 - ht)) in *.
    set (tp := if qltb 100 ht then on + (100 - p) * m else sto) in *.
    assert (CS : (100 < ht /\ tr == 100 - bot /\ hg == 0 /\ tp == on + (100 - p) * m) \/ (ht <= 100 /\ tr == ht - bot /\ hg == 100 - ht /\ tp == sto)).
    { unfold tr, hg, tp. destruct (qltb 100 ht) eqn:E; qbool; [left|right]; split; try assumption;
      destruct (qmin_spec 100 ht) as [[U V]|[U V]]; destruct (qmax_spec 0 (100 - ht)) as [[U' V']|[U' V']]; rewrite V, V'; repeat split; try reflexivity; lra. }
    set (bb := if qltb hs 0 then on - p * m else sup) in *. clearbody tr hg tp bb.
    destruct (Qle_bool (tr + hg) 0) eqn:E2; qbool; [destruct CS as [(C1 & C2 & C3 & C4)|(C1 & C2 & C3 & C4)]; lra|].
    apply ok_inj in H. subst x.
    assert (TT : tr + hg == 100 - bot) by (destruct CS as [(C1 & C2 & C3 & C4)|(C1 & C2 & C3 & C4)]; lra).
    refine (is_integral_comp _ _ _ _ _ _ SQ). clear SQ.
    assert (XX : (tr * ((tp + bb) / 2) + sto * hg) / (tr + hg) * (100 - bot) == tr * (tp + bb) * (1 # 2) + sto * hg).
    { rewrite <- TT. field. lra. }
    rewrite XX. destruct (Qle_bool bot ht) eqn:EB; qbool; [|lra]. rewrite B4, B5.
    destruct CS as [(C1 & C2 & C3 & C4)|(C1 & C2 & C3 & C4)]; rewrite C2, C3, C4; destruct (Qle_bool 100 ht) eqn:EH1; qbool.
    + ring.
    + lra.
    + assert (HE : ht == 100) by lra. assert (SE : sto == on + (100 - p) * m) by (rewrite <- HE; lra). rewrite HE, SE. ring.
    + assert (SE : sto == on + (ht - p) * m) by lra. rewrite SE. ring.
Qed.
