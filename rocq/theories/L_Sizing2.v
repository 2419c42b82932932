(** Lemmas for C38: the stratification factor is an integral. *)
From Verif Require Import Prelude M_StratifiedTank M_Building M_Heater M_Sizing S_Integral S_Sizing L_Integral L_Heater L_Building.
Open Scope Q_scope.

Section Trig.
  Variables p on m sup sto inl : Q.
  Hypothesis Hm : 0 < m.
  Hypothesis Hsi : inl < sup.
  Hypothesis Hss : sup <= sto.
  Hypothesis Hon : on <= sto.

  Definition tg_L (x : Q) : Q := on - inl + (x - p) * m.
  Definition tg_hs : Q := qmax (p + (sup - on) / m) p.
  Definition tg_ht : Q := p + (sto - on) / m.

  (** Heat relative to inlet of the usable water at height x, and its antiderivative. *)
  Definition tg_V (x : Q) : Q :=
    if qltb x tg_hs then 0 else if qltb x tg_ht then tg_L x else sto - inl.
  Definition tg_G (x : Q) : Q :=
    if qltb x tg_hs then 0
    else if qltb x tg_ht then (tg_L tg_hs + tg_L x) * (1 # 2) * (x - tg_hs)
    else (tg_L tg_hs + tg_L tg_ht) * (1 # 2) * (tg_ht - tg_hs) + (x - tg_ht) * (sto - inl).

  Lemma tg_div u : (u / m) * m == u.
  Proof. apply qdiv_mul. lra. Qed.

  Lemma tg_hs_le_ht : tg_hs <= tg_ht.
  Proof.
    unfold tg_hs, tg_ht. apply qmax_lub.
    - apply Qplus_le_r. apply qdiv_le_iff; [exact Hm|]. rewrite tg_div. lra.
    - pose proof (qdiv_nonneg (sto - on) m ltac:(lra) Hm). lra.
  Qed.

  Lemma tg_L_hs : sup - inl <= tg_L tg_hs.
  Proof.
    unfold tg_L, tg_hs.
    pose proof (qmax_l (p + (sup - on) / m) p) as H.
    assert ((sup - on) / m * m <= (qmax (p + (sup - on) / m) p - p) * m).
    { apply Qmult_le_compat_r; lra. }
    rewrite tg_div in H0. lra.
  Qed.

  Lemma tg_L_ht : tg_L tg_ht == sto - inl.
  Proof.
    unfold tg_L, tg_ht.
    setoid_replace (p + (sto - on) / m - p) with ((sto - on) / m) by ring.
    rewrite tg_div. ring.
  Qed.

  Lemma tg_L_mono x y : x <= y -> tg_L x <= tg_L y.
  Proof. intro H. unfold tg_L. assert ((x - p) * m <= (y - p) * m) by (apply Qmult_le_compat_r; lra). lra. Qed.

  Lemma tg_L_comp x y : x == y -> tg_L x == tg_L y.
  Proof. intro H. unfold tg_L. rewrite H. reflexivity. Qed.

  Lemma tg_trap x y : x <= y -> 0 <= tg_L x ->
    tg_L x * (y - x) <= (tg_L x + tg_L y) * (1 # 2) * (y - x) /\
    (tg_L x + tg_L y) * (1 # 2) * (y - x) <= tg_L y * (y - x).
  Proof.
    intros H P. pose proof (tg_L_mono x y H). split; apply Qmult_le_compat_r; lra.
  Qed.

  Lemma tg_trap_sub a x y : a <= x -> x <= y ->
    (tg_L a + tg_L y) * (1 # 2) * (y - a) - (tg_L a + tg_L x) * (1 # 2) * (x - a) == (tg_L x + tg_L y) * (1 # 2) * (y - x).
  Proof. intros. unfold tg_L. field. Qed.

  Lemma tg_squeezes a b : squeezes tg_V tg_G a b.
  Proof.
    intros x y _ H _. unfold tg_V, tg_G.
    pose proof tg_hs_le_ht as A. pose proof tg_L_hs as B. pose proof tg_L_ht as C.
    set (hs := tg_hs) in *. set (ht := tg_ht) in *. clearbody hs ht.
    destruct (qltb x hs) eqn:X1; destruct (qltb y hs) eqn:Y1; qbool; try lra.
    - destruct (qltb y ht) eqn:Y2; qbool.
      + destruct (tg_trap hs y) as [T1 T2]; [lra|lra|].
        assert (0 <= tg_L y) by (pose proof (tg_L_mono hs y ltac:(lra)); lra).
        assert (0 <= tg_L hs * (y - hs)) by (apply Qmult_le_0_compat; lra).
        assert (tg_L y * (y - hs) <= tg_L y * (y - x)).
        { rewrite !(Qmult_comm (tg_L y)). apply Qmult_le_compat_r; lra. }
        lra.
      + destruct (tg_trap hs ht) as [T1 T2]; [lra|lra|].
        assert (0 <= tg_L hs * (ht - hs)) by (apply Qmult_le_0_compat; lra).
        assert (0 <= (y - ht) * (sto - inl)) by (apply Qmult_le_0_compat; lra).
        assert (E : tg_L ht * (ht - hs) == (sto - inl) * (ht - hs)) by (rewrite C; reflexivity).
        assert (0 <= (sto - inl) * (hs - x)) by (apply Qmult_le_0_compat; lra).
        split; lra.
    - destruct (qltb x ht) eqn:X2; destruct (qltb y ht) eqn:Y2; qbool; try lra.
      + rewrite (tg_trap_sub hs x y) by lra.
        apply tg_trap; [exact H|]. pose proof (tg_L_mono hs x ltac:(lra)). lra.
      + pose proof (tg_trap_sub hs x ht ltac:(lra) ltac:(lra)) as E.
        destruct (tg_trap x ht) as [T1 T2]; [lra| |].
        { pose proof (tg_L_mono hs x ltac:(lra)). lra. }
        assert (E2 : tg_L ht * (ht - x) == (sto - inl) * (ht - x)) by (rewrite C; reflexivity).
        assert (tg_L x <= sto - inl) by (pose proof (tg_L_mono x ht ltac:(lra)); lra).
        assert (tg_L x * (y - ht) <= (sto - inl) * (y - ht)) by (apply Qmult_le_compat_r; lra).
        assert (tg_L x * (y - x) == tg_L x * (ht - x) + tg_L x * (y - ht)) by ring.
        assert ((sto - inl) * (y - x) == (sto - inl) * (ht - x) + (sto - inl) * (y - ht)) by ring.
        split; lra.
  Qed.

  Lemma tg_V_mono x y : x <= y -> tg_V x <= tg_V y.
  Proof.
    intro H. unfold tg_V.
    pose proof tg_hs_le_ht as A. pose proof tg_L_hs as B. pose proof tg_L_ht as C.
    set (hs := tg_hs) in *. set (ht := tg_ht) in *. clearbody hs ht.
    pose proof (tg_L_mono x y H).
    destruct (qltb x hs) eqn:X1; destruct (qltb y hs) eqn:Y1; qbool; try lra;
    destruct (qltb y ht) eqn:Y2; qbool; try lra;
    try (pose proof (tg_L_mono hs y ltac:(lra)); lra).
    all: destruct (qltb x ht) eqn:X2; qbool; try lra; pose proof (tg_L_mono x ht ltac:(lra)); lra.
  Qed.

  (** The specification's integrand is [tg_V] per heat of a supply gallon. *)
  Lemma usable_is_V h : usable_at p on m sup sto inl h == tg_V h / (sup - inl).
  Proof.
    assert (Z : 0 / (sup - inl) == 0) by (unfold Qdiv; ring).
    assert (K : tg_L h == on + (h - p) * m - inl) by (unfold tg_L; ring).
    assert (HT : h < tg_ht -> on + (h - p) * m < sto).
    { intro L. pose proof tg_L_ht as C. unfold tg_L in C.
      assert ((h - p) * m < (tg_ht - p) * m) by (apply Qmult_lt_compat_r; lra). lra. }
    assert (HT' : tg_ht <= h -> sto <= on + (h - p) * m).
    { intro L. pose proof tg_L_ht as C. unfold tg_L in C.
      assert ((tg_ht - p) * m <= (h - p) * m) by (apply Qmult_le_compat_r; lra). lra. }
    assert (HS : h < tg_hs -> h < p \/ on + (h - p) * m < sup).
    { intro L. unfold tg_hs in L. destruct (qmax_spec (p + (sup - on) / m) p) as [[U E]|[U E]]; rewrite E in L.
      - left; exact L.
      - destruct (Qlt_le_dec h p); [left; assumption|]. right.
        assert ((h - p) * m < (sup - on) / m * m) by (apply Qmult_lt_compat_r; lra).
        rewrite tg_div in H. lra. }
    assert (HS' : tg_hs <= h -> p <= h /\ sup <= on + (h - p) * m).
    { intro L. unfold tg_hs in L. pose proof (qmax_l (p + (sup - on) / m) p).
      pose proof (qmax_r (p + (sup - on) / m) p). split; [lra|].
      assert ((sup - on) / m * m <= (h - p) * m) by (apply Qmult_le_compat_r; lra).
      rewrite tg_div in H1. lra. }
    unfold usable_at, tg_V, trigger_profile.
    destruct (qltb h tg_hs) eqn:A; qbool.
    - destruct (qltb h p) eqn:B; qbool; [symmetry; exact Z|].
      destruct (HS A) as [C|C]; [lra|].
      pose proof (qmin_r sto (on + (h - p) * m)).
      destruct (qltb (qmin sto (on + (h - p) * m)) sup) eqn:D; qbool; [symmetry; exact Z|lra].
    - destruct (HS' A) as [B C].
      destruct (qltb h p) eqn:D; qbool; [lra|].
      pose proof (qmin_glb sto (on + (h - p) * m) sup Hss C) as G.
      destruct (qltb (qmin sto (on + (h - p) * m)) sup) eqn:E; qbool; [lra|].
      destruct (qltb h tg_ht) eqn:F; qbool.
      + assert (E1 : qmin sto (on + (h - p) * m) == on + (h - p) * m).
        { destruct (qmin_spec sto (on + (h - p) * m)) as [[U V]|[U V]]; rewrite V; pose proof (HT F); lra. }
        rewrite E1, K. reflexivity.
      + assert (E1 : qmin sto (on + (h - p) * m) == sto).
        { destruct (qmin_spec sto (on + (h - p) * m)) as [[U V]|[U V]]; rewrite V; pose proof (HT' F); lra. }
        rewrite E1. reflexivity.
  Qed.

  Lemma usable_squeezes a b :
    squeezes (usable_at p on m sup sto inl) (fun x => tg_G x / (sup - inl)) a b.
  Proof.
    intros x y Hx Hxy Hy. destruct (tg_squeezes a b x y Hx Hxy Hy) as [A B].
    rewrite !usable_is_V.
    assert (P : 0 <= / (sup - inl)) by (apply Qinv_le_0_compat; lra).
    split.
    - setoid_replace (tg_V x / (sup - inl) * (y - x)) with (tg_V x * (y - x) * / (sup - inl)) by (unfold Qdiv; ring).
      setoid_replace (tg_G y / (sup - inl) - tg_G x / (sup - inl)) with ((tg_G y - tg_G x) * / (sup - inl)) by (unfold Qdiv; ring).
      apply Qmult_le_compat_r; assumption.
    - setoid_replace (tg_V y / (sup - inl) * (y - x)) with (tg_V y * (y - x) * / (sup - inl)) by (unfold Qdiv; ring).
      setoid_replace (tg_G y / (sup - inl) - tg_G x / (sup - inl)) with ((tg_G y - tg_G x) * / (sup - inl)) by (unfold Qdiv; ring).
      apply Qmult_le_compat_r; assumption.
  Qed.

  Lemma usable_mono a b : nondecreasing_on (usable_at p on m sup sto inl) a b.
  Proof.
    intros x y _ H _. rewrite !usable_is_V. unfold Qdiv.
    apply Qmult_le_compat_r; [apply tg_V_mono; exact H|apply Qinv_le_0_compat; lra].
  Qed.
End Trig.

Lemma is_integral_comp T a b x y : x == y -> is_integral T a b x -> is_integral T a b y.
Proof. intros E H pts P. destruct (H pts P). lra. Qed.

Lemma supply_gal_integral s of_ on m inl x :
  0 < m -> 0 <= of_ -> inl < dh_supply s -> dh_supply s <= dh_storage s -> on <= dh_storage s ->
  supply_gal_100 s of_ on m inl = Ok x ->
  is_integral (usable_at (of_ * 100) on m (dh_supply s) (dh_storage s) inl) 0 100 x.
Proof.
  intros Hm Ho Hi Hs Hon H. unfold supply_gal_100 in H.
  rewrite !(qdiv_ok _ m) in H by lra. cbn [bind] in H. cbv zeta in H.
  rewrite !(qdiv_ok _ (dh_supply s - inl)) in H by lra. cbn [bind] in H.
  set (p := of_ * 100) in *.
  set (sup := dh_supply s) in *. set (sto := dh_storage s) in *.
  change (qmax (p + (sup - on) / m) p) with (tg_hs p on m sup) in H.
  change (p + (sto - on) / m) with (tg_ht p on m sto) in H.
  assert (P0 : 0 <= p) by (unfold p; lra).
  pose proof (tg_hs_le_ht p on m sup sto Hm Hs Hon) as A.
  pose proof (tg_L_ht p on m sto inl Hm) as C.
  pose proof (usable_squeezes p on m sup sto inl Hm Hi Hs Hon 0 100) as SQ.
  apply integral_of_antiderivative in SQ.
  refine (is_integral_comp _ _ _ _ _ _ SQ). clear SQ.
  assert (HSP : p <= tg_hs p on m sup) by (unfold tg_hs; apply qmax_r).
  assert (Z : 0 / (sup - inl) == 0) by (unfold Qdiv; ring).
  assert (G0 : tg_G p on m sup sto inl 0 == 0).
  { unfold tg_G. set (hs := tg_hs p on m sup) in *. set (ht := tg_ht p on m sto) in *. clearbody hs ht.
    destruct (qltb 0 hs) eqn:E; qbool; [reflexivity|].
    assert (E0 : hs == 0) by lra.
    destruct (qltb 0 ht) eqn:F; qbool.
    - unfold tg_L. rewrite E0. ring.
    - assert (E1 : ht == 0) by lra. unfold tg_L. rewrite E1, E0. ring. }
  setoid_replace (tg_G p on m sup sto inl 100 / (sup - inl) - tg_G p on m sup sto inl 0 / (sup - inl))
    with (tg_G p on m sup sto inl 100 / (sup - inl)) by (rewrite G0; unfold Qdiv; ring).
  unfold tg_G.
  set (hs := tg_hs p on m sup) in *. set (ht := tg_ht p on m sto) in *. clearbody hs ht.
  destruct (Qle_bool 100 hs) eqn:E; qbool.
  - apply ok_inj in H. subst x.
    destruct (qltb 100 hs) eqn:F; qbool; [exact Z|].
    assert (E0 : hs == 100) by lra.
    destruct (qltb 100 ht) eqn:F2; qbool.
    + assert (D : 100 - hs == 0) by lra. rewrite D. unfold Qdiv; ring.
    + assert (E1 : ht == 100) by lra.
      assert (D : ht - hs == 0) by lra. assert (D2 : 100 - ht == 0) by lra.
      rewrite D, D2. unfold Qdiv; ring.
  - apply ok_inj in H. subst x.
    destruct (qltb 100 hs) eqn:F; qbool; [lra|].
    destruct (qltb 100 ht) eqn:F2; qbool.
    + assert (S2 : qmin ht 100 == 100).
      { destruct (qmin_spec ht 100) as [[U V]|[U V]]; rewrite V; lra. }
      assert (S3 : qmax 0 (100 - qmin ht 100) == 0).
      { destruct (qmax_spec 0 (100 - qmin ht 100)) as [[U V]|[U V]]; rewrite V; lra. }
      rewrite S3, S2. unfold tg_L. field. lra.
    + assert (S2 : qmin ht 100 == ht).
      { destruct (qmin_spec ht 100) as [[U V]|[U V]]; rewrite V; lra. }
      assert (S3 : qmax 0 (100 - qmin ht 100) == 100 - ht).
      { destruct (qmax_spec 0 (100 - qmin ht 100)) as [[U V]|[U V]]; rewrite V; lra. }
      rewrite S3, S2. unfold tg_L. field. lra.
Qed.

Lemma py_min_le l d : py_min l = Ok d -> In d l /\ forall x, In x l -> d <= x.
Proof.
  intro H. split; [apply py_min_in; exact H|]. destruct l as [|a l]; [discriminate|].
  cbn [py_min] in H. inversion H; subst. destruct (qminl_le a l) as [A B].
  intros x [<-|X]; [exact A|apply B; exact X].
Qed.

Lemma mapM_in {A B} (f : A -> res B) : forall l r, mapM f l = Ok r ->
  (forall x, In x l -> exists y, f x = Ok y /\ In y r) /\ (forall y, In y r -> exists x, In x l /\ f x = Ok y).
Proof.
  induction l as [|a l IH]; intros r H; cbn [mapM] in H.
  - apply ok_inj in H. subst. split; intros ? [].
  - apply bind_ok in H. destruct H as (y & H1 & H). apply bind_ok in H. destruct H as (ys & H2 & H).
    apply ok_inj in H. subst r. destruct (IH _ H2) as [P Q]. split.
    + intros x [<-|X]; [exists y; split; [exact H1|left; reflexivity]|].
      destruct (P _ X) as (z & Z1 & Z2). exists z. split; [exact Z1|right; exact Z2].
    + intros z [<-|Z]; [exists a; split; [left; reflexivity|exact H1]|].
      destruct (Q _ Z) as (x & X1 & X2). exists x. split; [right; exact X1|exact X2].
Qed.
