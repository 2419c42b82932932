(** Stretches of minutes are covered when stretches of whole hours are. *)
From Verif Require Import Prelude S_Lasts L_Lasts2.
Open Scope Q_scope.

Lemma shortfall_split d g i n m : shortfall d g i (n + m) == shortfall d g i n + shortfall d g (i + n) m.
Proof.
  induction m as [|m IH]; [rewrite Nat.add_0_r, shortfall_O; ring|]. rewrite Nat.add_succ_r, !shortfall_S, IH. replace (i + (n + m))%nat with (i + n + m)%nat by lia. ring.
Qed.

Lemma shortfall_ext d d' g g' i n : (forall k, (i <= k < i + n)%nat -> d k - g == d' k - g') -> shortfall d g i n == shortfall d' g' i n.
Proof.
  induction n as [|n IH]; intro H; [reflexivity|]. rewrite !shortfall_S, IH by (intros k K; apply H; lia). rewrite (H (i + n)%nat) by lia. reflexivity.
Qed.

Lemma shortfall_shift d g i n q : (forall k, d (k + q)%nat = d k) -> shortfall d g (i + q) n == shortfall d g i n.
Proof.
  intro P. induction n as [|n IH]; [reflexivity|]. rewrite !shortfall_S, IH. replace (i + q + n)%nat with (i + n + q)%nat by lia. rewrite P. reflexivity.
Qed.

(** A day that repeats and brings at least what it takes: windows up to a day long decide. *)
Lemma shortfall_day d g R : (forall k, d (k + 24)%nat = d k) -> shortfall d g 0 24 <= 0 ->
  (forall i n, (i < 24)%nat -> (n <= 24)%nat -> shortfall d g i n <= R) -> forall i n, shortfall d g i n <= R.
Proof.
  intros P D H.
  assert (M : forall q i n, shortfall d g (i + q * 24) n == shortfall d g i n).
  { induction q as [|q IH]; intros i n; [rewrite Nat.add_0_r; reflexivity|]. replace (i + S q * 24)%nat with (i + q * 24 + 24)%nat by lia. rewrite shortfall_shift by exact P. apply IH. }
  assert (DD : forall i, shortfall d g i 24 <= 0).
  { intro i. rewrite (Nat.div_mod_eq i 24). replace (24 * (i / 24) + i mod 24)%nat with (i mod 24 + i / 24 * 24)%nat by lia. rewrite M.
    pose proof (Nat.mod_upper_bound i 24 ltac:(lia)) as B. set (r := (i mod 24)%nat) in *.
    (* a day from hour r is the rest of this day and the beginning of the next *)
    replace 24%nat with ((24 - r) + r)%nat at 1 by lia. rewrite shortfall_split. replace (r + (24 - r))%nat with (0 + 24)%nat by lia. rewrite shortfall_shift by exact P.
    pose proof (shortfall_split d g 0 r (24 - r)) as S. replace (r + (24 - r))%nat with 24%nat in S by lia. cbn [Nat.add] in S. lra. }
  intros i n. revert i. induction n as [n IH] using lt_wf_ind. intro i. destruct (le_lt_dec n 24) as [L|L].
  - rewrite (Nat.div_mod_eq i 24). replace (24 * (i / 24) + i mod 24)%nat with (i mod 24 + i / 24 * 24)%nat by lia. rewrite M. apply H; [apply Nat.mod_upper_bound; lia|exact L].
  - replace n with (24 + (n - 24))%nat by lia. rewrite shortfall_split. specialize (DD i). specialize (IH (n - 24)%nat ltac:(lia) (i + 24)%nat). lra.
Qed.

Section Minutes.
Variables (D : nat -> Q) (g R : Q).
Hypothesis H : forall a n, shortfall D g a n <= R.

Let f (k : nat) : Q := D (k / 60)%nat / 60.
Let g1 : Q := g / 60.

Lemma minutes_in_hour a r n : (r + n <= 60)%nat -> shortfall f g1 (60 * a + r) n == inject_Z (Z.of_nat n) * ((D a - g) / 60).
Proof.
  induction n as [|n IH]; intro L; [rewrite shortfall_O; ring|]. rewrite shortfall_S, IH by lia. unfold f at 1.
  replace ((60 * a + r + n) / 60)%nat with a by (apply (Nat.div_unique _ 60 a (r + n)); lia). unfold g1. rewrite Nat2Z.inj_succ, <- Z.add_1_r, inject_Z_plus. change (inject_Z 1) with 1. generalize (inject_Z (Z.of_nat n)). intro z. field.
Qed.

Lemma hours_of_minutes a n : shortfall f g1 (60 * a) (60 * n) == shortfall D g a n.
Proof.
  induction n as [|n IH]; [reflexivity|]. replace (60 * S n)%nat with (60 * n + 60)%nat by lia. rewrite shortfall_split, IH, (shortfall_S D).
  replace (60 * a + 60 * n)%nat with (60 * (a + n) + 0)%nat by lia. rewrite minutes_in_hour by lia. change (inject_Z (Z.of_nat 60)) with 60. generalize (shortfall D g a n) (D (a + n)%nat). intros u v. field.
Qed.

(** Part of an hour and then whole hours; whole hours and then part of one. *)
Lemma share_of_hour (x y w : Q) : 0 <= w -> w <= 1 -> x <= R -> y <= R -> (1 - w) * x + w * y <= R.
Proof. intros W0 W1 X Y. assert ((1 - w) * x <= (1 - w) * R) by (rewrite !(Qmult_comm (1 - w)); apply Qmult_le_compat_r; lra).
  assert (w * y <= w * R) by (rewrite !(Qmult_comm w); apply Qmult_le_compat_r; lra). lra. Qed.

Lemma minutes_covered i n : shortfall f g1 i n <= R.
Proof.
  set (a := (i / 60)%nat). set (r := (i mod 60)%nat). assert (Ei : i = (60 * a + r)%nat) by (unfold a, r; rewrite <- Nat.div_mod_eq; reflexivity).
  assert (Lr : (r < 60)%nat) by (apply Nat.mod_upper_bound; lia). rewrite Ei. clear Ei.
  assert (Q60 : forall m, (m <= 60)%nat -> 0 <= inject_Z (Z.of_nat m) / 60 <= 1).
  { intros m L. split; [apply qdiv_nonneg; [change 0 with (inject_Z 0); rewrite <- Zle_Qle; lia|reflexivity]|]. apply qdiv_le_iff; [reflexivity|]. change (1 * 60) with (inject_Z 60). rewrite <- Zle_Qle. lia. }
  destruct (le_lt_dec (r + n) 60) as [L|L].
  - (* within an hour *)
    rewrite minutes_in_hour by exact L. pose proof (H a 0) as H0. rewrite shortfall_O in H0. pose proof (H a 1) as H1. rewrite shortfall_S, shortfall_O, Nat.add_0_r in H1.
    destruct (Q60 n ltac:(lia)) as [W0 W1]. pose proof (share_of_hour 0 (D a - g) _ W0 W1 H0 ltac:(lra)) as S.
    setoid_replace (inject_Z (Z.of_nat n) * ((D a - g) / 60)) with ((1 - inject_Z (Z.of_nat n) / 60) * 0 + inject_Z (Z.of_nat n) / 60 * (D a - g)) by (generalize (inject_Z (Z.of_nat n)); intro z; field). exact S.
  - set (m := (n - (60 - r))%nat). set (c := (m / 60)%nat). set (s := (m mod 60)%nat). assert (Em : m = (60 * c + s)%nat) by (unfold c, s; rewrite <- Nat.div_mod_eq; reflexivity).
    assert (Ls : (s < 60)%nat) by (apply Nat.mod_upper_bound; lia).
    replace n with ((60 - r) + (60 * c + s))%nat by lia. rewrite shortfall_split, minutes_in_hour by lia. rewrite shortfall_split.
    replace (60 * a + r + (60 - r))%nat with (60 * (a + 1))%nat by lia. rewrite hours_of_minutes.
    replace (60 * (a + 1) + 60 * c)%nat with (60 * (a + 1 + c) + 0)%nat by lia. rewrite minutes_in_hour by lia.
    destruct (Q60 (60 - r)%nat ltac:(lia)) as [U0 U1]. destruct (Q60 s ltac:(lia)) as [W0 W1].
    set (u := inject_Z (Z.of_nat (60 - r)) / 60) in *. set (w := inject_Z (Z.of_nat s) / 60) in *. set (x := shortfall D g (a + 1) c).
    assert (X1 : x <= R) by apply H.
    assert (X2 : x + (D (a + 1 + c)%nat - g) <= R) by (unfold x; rewrite <- shortfall_S; apply H).
    assert (X3 : (D a - g) + x <= R).
    { pose proof (H a (1 + c)) as Z. rewrite shortfall_split, shortfall_S, shortfall_O, Nat.add_0_r in Z. fold x in Z. lra. }
    assert (X4 : (D a - g) + x + (D (a + 1 + c)%nat - g) <= R).
    { pose proof (H a (1 + S c)) as Z. rewrite shortfall_split, shortfall_S, shortfall_O, Nat.add_0_r, shortfall_S in Z. fold x in Z. lra. }
    pose proof (share_of_hour _ _ u U0 U1 X1 X3) as S1. pose proof (share_of_hour _ _ u U0 U1 X2 X4) as S2. pose proof (share_of_hour _ _ w W0 W1 S1 S2) as S3.
    setoid_replace (inject_Z (Z.of_nat (60 - r)) * ((D a - g) / 60) + (x + inject_Z (Z.of_nat s) * ((D (a + 1 + c)%nat - g) / 60)))
      with (u * (D a - g) + (x + w * (D (a + 1 + c)%nat - g))) by (unfold u, w; generalize (inject_Z (Z.of_nat (60 - r))) (inject_Z (Z.of_nat s)); intros z1 z2; field). lra.
Qed.
End Minutes.
