(** A clamped linear ramp, its antiderivative, and the three-zone integral that both
    stratified tank models use. *)
From Verif Require Import Prelude S_Integral L_Integral.
Open Scope Q_scope.

(** Profile that is [c] up to [r], rises with slope [m], and is [h] from [r + (h-c)/m] on. *)
Definition ramp (c h m r x : Q) : Q := qmax c (qmin h (m * (x - r) + c)).

Definition pos (z : Q) : Q := qmax 0 z.

(** Antiderivative, with [w] the width of the ramp ([h == c + m * w]). *)
Definition ramp_F (c m r w x : Q) : Q :=
  c * x + m * (1 # 2) * (pos (x - r) * pos (x - r)) - m * (1 # 2) * (pos (x - (r + w)) * pos (x - (r + w))).

Lemma ramp_cases c h m r w x :
  0 < m -> 0 <= w -> h == c + m * w ->
  (x <= r /\ ramp c h m r x == c) \/
  (r <= x /\ x <= r + w /\ ramp c h m r x == c + m * (x - r)) \/
  (r + w <= x /\ ramp c h m r x == h).
Proof.
  intros Hm Hw Hh. unfold ramp.
  destruct (Qlt_le_dec x r) as [A|A].
  - left. split; [lra|]. assert (m * (x - r) <= 0) by nra. assert (0 <= m * w) by nra. qmm; lra.
  - destruct (Qlt_le_dec x (r + w)) as [B|B].
    + right; left. repeat split; try lra. assert (0 <= m * (x - r)) by nra.
      assert (m * (x - r) <= m * w) by nra. qmm; lra.
    + right; right. split; [lra|]. assert (m * w <= m * (x - r)) by nra.
      assert (0 <= m * w) by nra. qmm; lra.
Qed.

Lemma pos_neg z : z <= 0 -> pos z == 0.
Proof. intros H. unfold pos. qmm; lra. Qed.
Lemma pos_pos z : 0 <= z -> pos z == z.
Proof. intros H. unfold pos. qmm; lra. Qed.

Lemma ramp_F_cases c m r w x :
  0 <= w ->
  (x <= r -> ramp_F c m r w x == c * x) /\
  (r <= x -> x <= r + w -> ramp_F c m r w x == c * x + m * (1 # 2) * ((x - r) * (x - r))) /\
  (r + w <= x -> ramp_F c m r w x == c * x + m * w * (x - r - w * (1 # 2))).
Proof.
  intros Hw. unfold ramp_F. split; [|split].
  - intros H. rewrite !pos_neg by lra. lra.
  - intros H1 H2. rewrite (pos_pos (x - r)), (pos_neg (x - (r + w))) by lra. lra.
  - intros H. rewrite (pos_pos (x - r)), (pos_pos (x - (r + w))) by lra. lra.
Qed.

Lemma ramp_mono c h m r x y : 0 < m -> x <= y -> ramp c h m r x <= ramp c h m r y.
Proof.
  intros Hm H. unfold ramp. assert (m * (x - r) <= m * (y - r)) by nra. qmm; lra.
Qed.

Lemma ramp_range c h m r x : c <= h -> c <= ramp c h m r x /\ ramp c h m r x <= h.
Proof. intros H. unfold ramp. split; qmm; lra. Qed.

Lemma ramp_squeezes c h m r w a b :
  0 < m -> 0 <= w -> h == c + m * w ->
  squeezes (ramp c h m r) (ramp_F c m r w) a b.
Proof.
  intros Hm Hw Hh x y _ Hxy _.
  destruct (ramp_F_cases c m r w x Hw) as [X1 [X2 X3]].
  destruct (ramp_F_cases c m r w y Hw) as [Y1 [Y2 Y3]].
  destruct (ramp_cases c h m r w x Hm Hw Hh) as [[A E]|[[A [A' E]]|[A E]]];
  destruct (ramp_cases c h m r w y Hm Hw Hh) as [[B F]|[[B [B' F]]|[B F]]];
  rewrite E, F.
  - rewrite X1, Y1 by lra. split; lra.
  - rewrite X1, Y2 by lra. 
    assert (0 <= m * ((y - r) * (r - x))) by (apply qmul_nonneg; [lra|apply qmul_nonneg; lra]).
    assert (0 <= m * ((y - r) * (y - r))) by (apply qmul_nonneg; [lra|apply qmul_nonneg; lra]).
    split; nra.
  - rewrite X1, Y3 by lra.
    assert (0 <= m * (w * (r - x))) by (apply qmul_nonneg; [lra|apply qmul_nonneg; lra]).
    assert (0 <= m * (w * (y - (r + w)))) by (apply qmul_nonneg; [lra|apply qmul_nonneg; lra]).
    assert (0 <= m * (w * w)) by (apply qmul_nonneg; [lra|apply qmul_nonneg; lra]).
    rewrite Hh. split; nra.
  - assert (x == y) by lra. assert (y == r) by lra.
    rewrite X2, Y1 by lra. split; nra.
  - rewrite X2, Y2 by lra.
    assert (0 <= m * ((y - x) * (y - x))) by (apply qmul_nonneg; [lra|apply qmul_nonneg; lra]).
    split; nra.
  - rewrite X2, Y3 by lra. rewrite Hh.
    assert (0 <= m * ((r + w - x) * (r + w - x))) by (apply qmul_nonneg; [lra|apply qmul_nonneg; lra]).
    assert (0 <= m * ((r + w - x) * (y - r - w))) by (apply qmul_nonneg; [lra|apply qmul_nonneg; lra]).
    split; nra.
  - assert (w == 0) by lra. assert (x == y) by lra.
    rewrite X3, Y1 by lra. split; nra.
  - assert (x == r + w) by lra. assert (y == r + w) by lra.
    rewrite X3, Y2 by lra. split; nra.
  - rewrite X3, Y3 by lra. rewrite Hh. split; nra.
Qed.

(** The three-zone formula with clamped boundaries. *)
Definition clampp (z : Q) : Q := qmax 0 (qmin 100 z).
Definition zone_int (c h m r w lo hi : Q) : Q :=
  let xc := clampp r in
  let xh := clampp (r + w) in
  c * qmax 0 (qmin hi xc - lo)
  + (let a := qmax lo xc in let b := qmin hi xh in
     if qltb a b then m * (1 # 2) * ((b - r) * (b - r) - (a - r) * (a - r)) + c * (b - a) else 0)
  + h * qmax 0 (hi - qmax lo xh).

Ltac zfin lo hi r w :=
  qmm;
  match goal with |- context [qltb ?a ?b] => destruct (qltb a b) eqn:? end; qbool;
  try (exfalso; lra); try lra;
  try (assert (E1 : lo == 0) by lra; rewrite !E1); 
  try (assert (E2 : hi == 0) by lra; rewrite !E2);
  try (assert (E3 : hi == lo) by lra; rewrite !E3);
  try (assert (E4 : lo == 100) by lra; rewrite !E4);
  try (assert (E5 : hi == 100) by lra; rewrite !E5);
  try (assert (E6 : r == 0) by lra; rewrite !E6);
  try (assert (E7 : w == 0) by lra; rewrite !E7);
  try (assert (E10 : r == hi) by lra; rewrite !E10);
  try (assert (E8 : r == lo) by lra; rewrite !E8);
  try (assert (E9 : w == lo - r) by lra; rewrite !E9);
  try (assert (E9 : w == hi - r) by lra; rewrite !E9);
  try lra; try nra.

Lemma zone_int_F c h m r w lo hi :
  0 < m -> 0 <= w -> h == c + m * w -> 0 <= lo -> lo <= hi -> hi <= 100 ->
  zone_int c h m r w lo hi == ramp_F c m r w hi - ramp_F c m r w lo.
Proof.
  intros Hm Hw Hh H0 H1 H2. unfold zone_int, clampp.
  destruct (ramp_F_cases c m r w lo Hw) as [X1 [X2 X3]].
  destruct (ramp_F_cases c m r w hi Hw) as [Y1 [Y2 Y3]].
  destruct (Qlt_le_dec r lo) as [A|A]; [destruct (Qlt_le_dec (r + w) lo) as [A'|A']|];
  (destruct (Qlt_le_dec r hi) as [B|B]; [destruct (Qlt_le_dec (r + w) hi) as [B'|B']|]);
  try (exfalso; lra).
  - rewrite X3, Y3 by lra. rewrite Hh. zfin lo hi r w.
  - rewrite X2, Y3 by lra. rewrite Hh. zfin lo hi r w.
  - rewrite X2, Y2 by lra. rewrite Hh. zfin lo hi r w.
  - rewrite X1, Y3 by lra. rewrite Hh. zfin lo hi r w.
  - rewrite X1, Y2 by lra. rewrite Hh. zfin lo hi r w.
  - rewrite X1, Y1 by lra. rewrite Hh. zfin lo hi r w.
Qed.
