(** Facts about the integral specification: uniqueness, construction from an antiderivative,
    bounds. *)
From Verif Require Import Prelude S_Integral.
Open Scope Q_scope.

(** ** Archimedean helper *)
Lemma q_archimed (K e : Q) : 0 <= K -> 0 < e -> exists n : nat, (0 < n)%nat /\ K < qz (Z.of_nat n) * e.
Proof.
  intros HK He.
  exists (Z.to_nat (Qceiling (K / e) + 1)).
  assert (Hq : 0 <= K / e) by (apply qdiv_nonneg; assumption).
  pose proof (Qle_ceiling (K / e)) as Hc.
  assert (Hz : (0 <= Qceiling (K / e))%Z).
  { rewrite Zle_Qle. change (inject_Z 0) with 0. lra. }
  split; [lia|].
  rewrite Z2Nat.id by lia. unfold qz. rewrite inject_Z_plus. change (inject_Z 1) with 1.
  assert (K / e * e == K) by (field; lra).
  assert (K / e * e <= inject_Z (Qceiling (K / e)) * e) by (apply Qmult_le_compat_r; lra).
  lra.
Qed.

(** A quantity that is at most K/n for every n > 0 is at most 0. *)
Lemma q_squeeze (x K : Q) : 0 <= K ->
  (forall n : nat, (0 < n)%nat -> qz (Z.of_nat n) * x <= K) -> x <= 0.
Proof.
  intros HK H. destruct (Qlt_le_dec 0 x) as [L|L]; [|exact L].
  destruct (q_archimed K x HK L) as [n [Hn Hx]]. specialize (H n Hn). lra.
Qed.

(** ** Uniform partitions *)
Fixpoint upts (a d : Q) (n : nat) : list Q :=
  match n with O => [] | S n' => (a + d) :: upts (a + d) d n' end.
Fixpoint ulast (a d : Q) (n : nat) : Q :=
  match n with O => a | S n' => ulast (a + d) d n' end.

Lemma ulast_eq a d n : ulast a d n == a + qz (Z.of_nat n) * d.
Proof.
  revert a. induction n as [|n IH]; intro a.
  - simpl. change (qz 0) with 0. lra.
  - cbn [ulast]. rewrite IH. rewrite Nat2Z.inj_succ. unfold qz, Z.succ. rewrite inject_Z_plus.
    change (inject_Z 1) with 1. lra.
Qed.

Lemma upts_partition a d n b : 0 <= d -> b == ulast a d n -> is_partition a (upts a d n) b.
Proof.
  intros Hd. revert a. induction n as [|n IH]; intros a Hb; simpl in *.
  - lra.
  - split; [lra|]. apply IH. exact Hb.
Qed.

Lemma upts_gap T a d n :
  upper_sum T a (upts a d n) - lower_sum T a (upts a d n) == d * (T (ulast a d n) - T a).
Proof.
  revert a. induction n as [|n IH]; intro a; simpl; [lra|].
  specialize (IH (a + d)). 
  assert (E : a + d - a == d) by lra. rewrite !E. lra.
Qed.

Lemma partition_le a pts b : is_partition a pts b -> a <= b.
Proof.
  revert a. induction pts as [|x r IH]; intros a H; simpl in H; [lra|].
  destruct H as [H1 H2]. apply IH in H2. lra.
Qed.

Lemma integral_unique T a b I1 I2 :
  a <= b -> nondecreasing_on T a b ->
  is_integral T a b I1 -> is_integral T a b I2 -> I1 == I2.
Proof.
  intros Hab Hm.
  assert (W : forall J1 J2, is_integral T a b J1 -> is_integral T a b J2 -> J1 - J2 <= 0).
  { intros J1 J2 H1 H2.
    apply q_squeeze with (K := (b - a) * (T b - T a)).
    - assert (T a <= T b) by (apply Hm; lra). apply qmul_nonneg; lra.
    - intros n Hn.
      assert (Hnq : 0 < qz (Z.of_nat n)).
      { unfold qz. change 0 with (inject_Z 0). rewrite <- Zlt_Qlt. lia. }
      set (N := qz (Z.of_nat n)) in *. set (d := (b - a) / N).
      assert (Ed : N * d == b - a) by (unfold d; field; lra).
      assert (Hd : 0 <= d) by (unfold d; apply qdiv_nonneg; lra).
      assert (Hl : b == ulast a d n) by (rewrite ulast_eq; fold N; lra).
      pose proof (upts_partition a d n b Hd Hl) as HP.
      destruct (H1 _ HP) as [_ U]. destruct (H2 _ HP) as [L _].
      pose proof (upts_gap T a d n) as G.
      assert (HT : T (ulast a d n) <= T b).
      { apply Hm; rewrite <- ?Hl; lra. }
      assert (J1 - J2 <= d * (T b - T a)).
      { assert (d * (T (ulast a d n) - T a) <= d * (T b - T a)) by nra. lra. }
      assert (N * (J1 - J2) <= N * (d * (T b - T a))) by nra.
      assert (N * (d * (T b - T a)) == (b - a) * (T b - T a)) by (rewrite <- Ed; ring).
      lra. }
  intros H1 H2. pose proof (W _ _ H1 H2). pose proof (W _ _ H2 H1). lra.
Qed.

Lemma mean_unique T a b m1 m2 :
  a < b -> nondecreasing_on T a b -> is_mean T a b m1 -> is_mean T a b m2 -> m1 == m2.
Proof.
  intros Hab Hm H1 H2. unfold is_mean in *.
  assert (E : m1 * (b - a) == m2 * (b - a)) by (eapply integral_unique; eauto; lra).
  assert (Hz : ~ b - a == 0) by lra.
  apply (Qmult_inj_r m1 m2 (b - a)) in E; assumption.
Qed.

(** ** Construction from an antiderivative *)
Definition squeezes (T F : Q -> Q) (a b : Q) : Prop :=
  forall x y, a <= x -> x <= y -> y <= b ->
    T x * (y - x) <= F y - F x /\ F y - F x <= T y * (y - x).

Lemma integral_of_antiderivative T F a b :
  squeezes T F a b -> is_integral T a b (F b - F a).
Proof.
  intros H pts. revert a H.
  induction pts as [|x r IH]; intros c H P; simpl in *.
  - destruct (H c b) as [H1 H2]; [lra|lra|lra|].
    assert (E : b - c == 0) by lra. rewrite E in H1, H2. lra.
  - destruct P as [P1 P2].
    pose proof (partition_le _ _ _ P2) as P3.
    destruct (IH x) as [A B]; auto.
    { intros u v Hu Hv Hw. apply H; lra. }
    destruct (H c x) as [C D]; lra.
Qed.

(** ** Consequences *)
Lemma integral_bounds T a b I :
  a <= b -> is_integral T a b I -> T a * (b - a) <= I /\ I <= T b * (b - a).
Proof.
  intros Hab H. destruct (H [b]) as [H1 H2].
  - simpl. split; lra.
  - simpl in *. split; lra.
Qed.

Lemma mean_bounds T a b m :
  a < b -> is_mean T a b m -> T a <= m /\ m <= T b.
Proof.
  intros Hab H. apply integral_bounds in H; [|lra]. destruct H as [H1 H2].
  split; apply Qmult_le_r with (z := b - a); lra.
Qed.

Lemma level_length_unique T a b s m1 m2 :
  is_level_length T a b s m1 -> is_level_length T a b s m2 -> m1 == m2.
Proof.
  intros [x [Hx [Ex [L1 R1]]]] [y [Hy [Ey [L2 R2]]]].
  assert (x == y); [|lra].
  destruct (Q_dec x y) as [[C|C]|C]; [| |exact C]; exfalso.
  - pose proof (L2 ((x + y) * (1 # 2))) as A. pose proof (R1 ((x + y) * (1 # 2))) as B.
    set (m := T ((x + y) * (1 # 2))) in *.
    assert (m < s) by (apply A; lra). assert (s <= m) by (apply B; lra). lra.
  - pose proof (L1 ((x + y) * (1 # 2))) as A. pose proof (R2 ((x + y) * (1 # 2))) as B.
    set (m := T ((x + y) * (1 # 2))) in *.
    assert (m < s) by (apply A; lra). assert (s <= m) by (apply B; lra). lra.
Qed.
