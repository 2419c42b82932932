(** Stretches of minutes from a given minute, from stretches of whole hours beginning with its hour or the next. *)
From Verif Require Import Prelude S_Lasts L_Lasts2 L_Lasts3.
Open Scope Q_scope.

Section From.
Variables (D : nat -> Q) (g R : Q) (a : nat).
Let f (k : nat) : Q := D (k / 60)%nat / 60.
Let g1 : Q := g / 60.

Lemma in_hour b r n : (r + n <= 60)%nat -> shortfall f g1 (60 * b + r) n == inject_Z (Z.of_nat n) * ((D b - g) / 60).
Proof. exact (minutes_in_hour D g b r n). Qed.
Lemma whole_hours b n : shortfall f g1 (60 * b) (60 * n) == shortfall D g b n.
Proof. exact (hours_of_minutes D g b n). Qed.

Lemma part_of_hour m : (m <= 60)%nat -> 0 <= inject_Z (Z.of_nat m) / 60 <= 1.
Proof.
  intro L. split; [apply qdiv_nonneg; [change 0 with (inject_Z 0); rewrite <- Zle_Qle; lia|reflexivity]|].
  apply qdiv_le_iff; [reflexivity|]. change (1 * 60) with (inject_Z 60). rewrite <- Zle_Qle. lia.
Qed.

Lemma minutes_to r c : (r <= 60)%nat -> shortfall D g (a + 1) c <= R -> shortfall D g a (1 + c) <= R ->
  shortfall f g1 (60 * a + r) (60 * (a + 1 + c) - (60 * a + r)) <= R.
Proof.
  intros Lr H1 H2. replace (60 * (a + 1 + c) - (60 * a + r))%nat with ((60 - r) + 60 * c)%nat by lia.
  rewrite shortfall_split, in_hour by lia. replace (60 * a + r + (60 - r))%nat with (60 * (a + 1))%nat by lia. rewrite whole_hours.
  rewrite shortfall_split, shortfall_S, shortfall_O, Nat.add_0_r in H2. set (x := shortfall D g (a + 1) c) in *.
  destruct (part_of_hour (60 - r)%nat ltac:(lia)) as [U0 U1]. set (u := inject_Z (Z.of_nat (60 - r)) / 60) in *.
  pose proof (share_of_hour R x ((D a - g) + x) u U0 U1 H1 ltac:(lra)) as S.
  setoid_replace (inject_Z (Z.of_nat (60 - r)) * ((D a - g) / 60)) with (u * (D a - g)) by (unfold u; generalize (inject_Z (Z.of_nat (60 - r))); intros z1; field). lra.
Qed.

Lemma minutes_whole n : (forall n, shortfall D g a n <= R) -> shortfall f g1 (60 * a) n <= R.
Proof.
  intro Ha. set (c := (n / 60)%nat). set (s := (n mod 60)%nat). assert (Em : n = (60 * c + s)%nat) by (unfold c, s; rewrite <- Nat.div_mod_eq; reflexivity).
  assert (Ls : (s < 60)%nat) by (apply Nat.mod_upper_bound; lia). rewrite Em, shortfall_split, whole_hours. replace (60 * a + 60 * c)%nat with (60 * (a + c) + 0)%nat by lia. rewrite in_hour by lia.
  pose proof (Ha c) as H1. pose proof (Ha (S c)) as H2. rewrite shortfall_S in H2. destruct (part_of_hour s ltac:(lia)) as [W0 W1]. set (w := inject_Z (Z.of_nat s) / 60) in *.
  pose proof (share_of_hour R _ _ w W0 W1 H1 H2) as S.
  setoid_replace (inject_Z (Z.of_nat s) * ((D (a + c)%nat - g) / 60)) with (w * (D (a + c)%nat - g)) by (unfold w; generalize (inject_Z (Z.of_nat s)); intros z1; field). lra.
Qed.

Hypothesis Ha : forall n, shortfall D g a n <= R.
Hypothesis Hn : forall n, shortfall D g (a + 1) n <= R.

Lemma minutes_from r n : (r <= 60)%nat -> shortfall f g1 (60 * a + r) n <= R.
Proof.
  intro Lr. destruct (le_lt_dec (r + n) 60) as [L|L].
  - rewrite in_hour by exact L. pose proof (Ha 0) as H0. rewrite shortfall_O in H0. pose proof (Ha 1) as H1. rewrite shortfall_S, shortfall_O, Nat.add_0_r in H1.
    destruct (part_of_hour n ltac:(lia)) as [W0 W1]. pose proof (share_of_hour R 0 (D a - g) _ W0 W1 H0 ltac:(lra)) as S.
    setoid_replace (inject_Z (Z.of_nat n) * ((D a - g) / 60)) with ((1 - inject_Z (Z.of_nat n) / 60) * 0 + inject_Z (Z.of_nat n) / 60 * (D a - g)) by (generalize (inject_Z (Z.of_nat n)); intro z; field). exact S.
  - set (m := (n - (60 - r))%nat). set (c := (m / 60)%nat). set (s := (m mod 60)%nat). assert (Em : m = (60 * c + s)%nat) by (unfold c, s; rewrite <- Nat.div_mod_eq; reflexivity).
    assert (Ls : (s < 60)%nat) by (apply Nat.mod_upper_bound; lia).
    assert (E1 : forall c, (60 * (a + 1 + c) - (60 * a + r) = 60 - r + 60 * c)%nat) by (intro; lia).
    pose proof (minutes_to r c Lr (Hn c) (Ha (1 + c)%nat)) as M1. pose proof (minutes_to r (S c) Lr (Hn (S c)) (Ha (1 + S c)%nat)) as M2. rewrite E1 in M1, M2.
    replace n with ((60 - r + 60 * c) + s)%nat by lia. rewrite shortfall_split.
    replace (60 - r + 60 * S c)%nat with ((60 - r + 60 * c) + 60)%nat in M2 by lia. rewrite shortfall_split in M2.
    replace (60 * a + r + (60 - r + 60 * c))%nat with (60 * (a + 1 + c) + 0)%nat in * by lia.
    rewrite (in_hour (a + 1 + c) 0 60) in M2 by lia. rewrite (in_hour (a + 1 + c) 0 s) by lia. change (inject_Z (Z.of_nat 60)) with 60 in M2.
    destruct (part_of_hour s ltac:(lia)) as [W0 W1]. set (w := inject_Z (Z.of_nat s) / 60) in *.
    set (x := shortfall f g1 (60 * a + r) (60 - r + 60 * c)) in *. set (y := D (a + 1 + c)%nat - g) in *.
    assert (M2' : x + y <= R) by (setoid_replace y with (60 * (y / 60)) by field; exact M2).
    pose proof (share_of_hour R x (x + y) w W0 W1 M1 M2') as S.
    setoid_replace (inject_Z (Z.of_nat s) * (y / 60)) with (w * y) by (unfold w; generalize (inject_Z (Z.of_nat s)); intros z1; field). lra.
Qed.
End From.

(** Days that repeat. *)
Section Days.
Variables (D : nat -> Q) (g : Q).
Hypothesis P24 : forall k, D (k + 24)%nat = D k.

Lemma days_shift q i n : shortfall D g (i + q * 24) n == shortfall D g i n.
Proof.
  revert i n. induction q as [|q IH]; intros i n; [rewrite Nat.add_0_r; reflexivity|]. replace (i + S q * 24)%nat with (i + q * 24 + 24)%nat by lia.
  rewrite shortfall_shift by exact P24. apply IH.
Qed.

Lemma hours_mod i n : shortfall D g i n == shortfall D g (i mod 24) n.
Proof.
  rewrite (Nat.div_mod_eq i 24) at 1. replace (24 * (i / 24) + i mod 24)%nat with (i mod 24 + i / 24 * 24)%nat by lia. apply days_shift.
Qed.

Lemma any_day i : shortfall D g i 24 == shortfall D g 0 24.
Proof.
  rewrite hours_mod. pose proof (Nat.mod_upper_bound i 24 ltac:(lia)) as B. set (r := (i mod 24)%nat) in *.
  replace 24%nat with ((24 - r) + r)%nat at 1 by lia. rewrite shortfall_split. replace (r + (24 - r))%nat with (0 + 24)%nat by lia. rewrite shortfall_shift by exact P24.
  pose proof (shortfall_split D g 0 r (24 - r)) as S. replace (r + (24 - r))%nat with 24%nat in S by lia. cbn [Nat.add] in S. lra.
Qed.

Hypothesis DAY : shortfall D g 0 24 <= 0.

Lemma days_more i n t : shortfall D g i (n + t * 24) <= shortfall D g i n.
Proof.
  induction t as [|t IH]; [rewrite Nat.add_0_r; lra|]. replace (n + S t * 24)%nat with ((n + t * 24) + 24)%nat by lia. rewrite shortfall_split, any_day. lra.
Qed.

Lemma days_from i R : (forall n, (n <= 24)%nat -> shortfall D g i n <= R) -> forall n, shortfall D g i n <= R.
Proof.
  intros W n. induction n as [n IH] using lt_wf_ind. destruct (le_lt_dec n 24) as [L|L]; [exact (W n L)|].
  replace n with ((n - 24) + 24)%nat by lia. rewrite shortfall_split, any_day. specialize (IH (n - 24)%nat ltac:(lia)). lra.
Qed.
End Days.
