(** binary64 lemmas: links Coq's executable IEEE-754 specification to Flocq's real-number account. *)
From Coq Require Import ZArith Reals SpecFloat Lra Lia.
From Flocq Require Import Core BinarySingleNaN Relative Operations.
From Verif Require Import Prelude M_Float.
From Coq Require Import Lra.
Open Scope R_scope.

Local Instance Hp : Prec_gt_0 53 := eq_refl.
Local Instance Hm : Prec_lt_emax 53 1024 := eq_refl.
Notation rnd := (round radix2 (FLT_exp (-1074) 53) (Znearest (fun x => negb (Z.even x)))).

(** *** Executable specification and Flocq *)

Lemma aux_equiv : forall s m e l,
  SpecFloat.binary_round_aux 53 1024 s m e l = binary_round_aux 53 1024 mode_NE s m e l.
Proof.
  intros s m e l. unfold SpecFloat.binary_round_aux, binary_round_aux.
  destruct (shr_fexp 53 1024 m e l) as [mrs' e']. cbn [fst].
  assert (E : forall m l, round_nearest_even m l = choice_mode mode_NE s m l).
  { intros m0 l0. unfold round_nearest_even, choice_mode, Round.round_N.
    destruct l0 as [|[]]; cbn; try reflexivity. unfold Round.cond_incr. destruct (Z.even m0); reflexivity. }
  rewrite E. reflexivity.
Qed.

Definition bint (n : Z) : binary_float 53 1024 := binary_normalize 53 1024 Hp Hm mode_NE n 0 false.

Lemma bint_sf : forall n, f64_of_int n = B2SF (bint n).
Proof.
  intros n. unfold f64_of_int, bint, SpecFloat.binary_normalize, binary_normalize.
  destruct n as [|p|p]; [reflexivity| |]; rewrite B2SF_SF2B;
  unfold SpecFloat.binary_round, binary_round, shl_align_fexp;
  destruct (shl_align _ _ _) as [mz ez]; apply aux_equiv.
Qed.

Lemma bdiv_sf : forall x y : binary_float 53 1024,
  SFdiv 53 1024 (B2SF x) (B2SF y) = B2SF (Bdiv mode_NE x y).
Proof.
  intros x y.
  destruct x as [sx|sx| |sx mx ex Bx]; destruct y as [sy|sy| |sy my ey By]; try reflexivity.
  cbn [B2SF SFdiv Bdiv]. rewrite B2SF_SF2B.
  destruct (SFdiv_core_binary 53 1024 (Z.pos mx) ex (Z.pos my) ey) as [[mz ez] lz]. apply aux_equiv.
Qed.

(** *** Values *)

Lemma rnd_int : forall n, (Z.abs n <= 2 ^ 53)%Z -> rnd (IZR n) = IZR n.
Proof.
  intros n Hn. apply round_generic; [typeclasses eauto|].
  apply generic_format_FLT.
  destruct (Z.eq_dec (Z.abs n) (2 ^ 53)) as [E|E].
  - apply FLT_spec with (Float radix2 (Z.sgn n) 53).
    + unfold F2R. cbn [Fnum Fexp]. replace (bpow radix2 53) with (IZR (2 ^ 53)) by reflexivity.
      rewrite <- mult_IZR. f_equal. rewrite <- E. symmetry. rewrite Z.mul_comm. apply Z.abs_sgn.
    + cbn [Fnum]. destruct n; cbn; lia.
    + cbn. lia.
  - apply FLT_spec with (Float radix2 n 0).
    + unfold F2R. cbn [Fnum Fexp bpow]. ring.
    + cbn [Fnum]. change (Zpower radix2 53) with (2 ^ 53)%Z. lia.
    + cbn. lia.
Qed.

Lemma bint_val : forall n, (Z.abs n <= 2 ^ 53)%Z -> B2R (bint n) = IZR n /\ is_finite (bint n) = true.
Proof.
  intros n Hn. pose proof (binary_normalize_correct 53 1024 Hp Hm mode_NE n 0 false) as H. cbn zeta in H.
  assert (E : F2R (Float radix2 n 0) = IZR n) by (unfold F2R; cbn [Fnum Fexp bpow]; ring).
  rewrite E in H.
  assert (R : round radix2 (SpecFloat.fexp 53 1024) (round_mode mode_NE) (IZR n) = IZR n) by exact (rnd_int n Hn).
  rewrite R in H. rewrite Rlt_bool_true in H.
  - destruct H as (A & B & _). split; assumption.
  - rewrite <- abs_IZR. apply Rle_lt_trans with (IZR (2 ^ 53)); [apply IZR_le; exact Hn|].
    change (IZR (2 ^ 53)) with (bpow radix2 53). apply bpow_lt. reflexivity.
Qed.

Lemma bdiv_val : forall x y : binary_float 53 1024, is_finite x = true -> B2R y <> 0 ->
  Rabs (rnd (B2R x / B2R y)) < bpow radix2 1024 ->
  B2R (Bdiv mode_NE x y) = rnd (B2R x / B2R y) /\ is_finite (Bdiv mode_NE x y) = true.
Proof.
  intros x y Fx Ny L. pose proof (Bdiv_correct 53 1024 Hp Hm mode_NE x y Ny) as H.
  rewrite Rlt_bool_true in H by exact L. destruct H as (A & B & _). rewrite Fx in B. split; [exact A|exact B].
Qed.

Lemma div_step : forall x y : binary_float 53 1024, B2R y <> 0 ->
  f64_div (B2SF x) (B2SF y) = Ok (B2SF (Bdiv mode_NE x y)).
Proof.
  intros x y Ny. rewrite <- bdiv_sf. unfold f64_div.
  destruct y; cbn [B2SF]; try reflexivity. elim Ny. reflexivity.
Qed.

Lemma floor_val : forall x : binary_float 53 1024, is_finite x = true -> f64_floor (B2SF x) = Ok (Zfloor (B2R x)).
Proof.
  intros x F. destruct x as [s|s| |s m e B]; try discriminate.
  - cbn. rewrite (Zfloor_IZR 0). reflexivity.
  - cbn [B2SF f64_floor B2R]. f_equal. unfold F2R. cbn [Fnum Fexp].
    replace (if s then Z.neg m else Z.pos m) with (cond_Zopp s (Z.pos m)) by (destruct s; reflexivity).
    set (z := cond_Zopp s (Z.pos m)).
    destruct (0 <=? e)%Z eqn:Ee.
    + apply Z.leb_le in Ee. change 2%Z with (radix_val radix2). rewrite <- IZR_Zpower by exact Ee.
      rewrite <- mult_IZR. rewrite Zfloor_IZR. reflexivity.
    + apply Z.leb_gt in Ee.
      assert (P : bpow radix2 e = / IZR (2 ^ (- e))).
      { change 2%Z with (radix_val radix2). rewrite IZR_Zpower by lia. rewrite <- bpow_opp. f_equal. lia. }
      rewrite P. symmetry. apply (Zfloor_div z (2 ^ (- e))). assert (0 < 2 ^ (- e))%Z by (apply Z.pow_pos_nonneg; lia). lia.
Qed.

(** *** Rounding error *)

Lemma rnd_rel : forall x, bpow radix2 (-1022) <= Rabs x ->
  exists d, Rabs d <= / 2 * bpow radix2 (-52) /\ rnd x = x * (1 + d).
Proof. intros x Hx. exact (relative_error_N_FLT_ex radix2 (-1074) 53 Hp (fun z => negb (Z.even z)) x Hx). Qed.

Lemma tiny : bpow radix2 (-1022) <= bpow radix2 (-60).
Proof. apply bpow_le. lia. Qed.

Lemma u_val : / 2 * bpow radix2 (-52) = / IZR (2 ^ 53).
Proof. change (bpow radix2 (-52)) with (/ IZR (2 ^ 52)). rewrite <- Rinv_mult. f_equal. Qed.

(** The computed quotient is finite and within a relative error of 2^-51 of step * iv / 60. *)
Lemma hour_real : forall t iv : Z, (0 < iv)%Z -> (0 <= t)%Z -> (t * iv < 60 * 2 ^ 30)%Z -> (iv <= 60 * 2 ^ 30)%Z ->
  exists y, f64_hour_of_step t iv = Ok (Zfloor y) /\
    y = rnd (IZR t / rnd (60 / IZR iv)) /\
    Rabs (y - IZR (t * iv) / 60) <= / 200.
Proof.
  intros t iv Hiv Ht HT Hb.
  assert (Bt : (t < 60 * 2 ^ 30)%Z) by (assert (t * 1 <= t * iv)%Z by (apply Z.mul_le_mono_nonneg_l; lia); lia).
  destruct (bint_val 60 ltac:(lia)) as (V60 & F60).
  destruct (bint_val iv ltac:(lia)) as (Viv & Fiv).
  destruct (bint_val t ltac:(lia)) as (Vt & Ft).
  assert (I0 : 1 <= IZR iv) by (apply IZR_le; lia).
  assert (I1 : IZR iv <= IZR (60 * 2 ^ 30)) by (apply IZR_le; lia).
  assert (T0 : 0 <= IZR t) by (apply IZR_le; lia).
  assert (P30 : IZR (60 * 2 ^ 30) = 64424509440) by reflexivity. rewrite P30 in I1.
  set (q := 60 / IZR iv).
  assert (Q0 : / 1073741824 <= q).
  { unfold q. apply Rle_trans with (60 / 64424509440); [lra|]. unfold Rdiv. apply Rmult_le_compat_l; [lra|].
    apply Rinv_le; lra. }
  assert (Q1 : q <= 60).
  { unfold q. unfold Rdiv. rewrite <- (Rmult_1_r 60) at 2. apply Rmult_le_compat_l; [lra|].
    rewrite <- Rinv_1. apply Rinv_le; lra. }
  assert (S30 : bpow radix2 (-1022) <= / 1073741824).
  { change (/ 1073741824) with (bpow radix2 (-30)). apply bpow_le. lia. }
  destruct (rnd_rel q) as (d1 & D1 & E1). { rewrite Rabs_pos_eq by lra. lra. }
  rewrite u_val in D1. change (IZR (2 ^ 53)) with 9007199254740992 in D1.
  assert (D1' : - / 9007199254740992 <= d1 <= / 9007199254740992) by (apply Rabs_le_inv; exact D1).
  set (r := rnd q) in *.
  assert (R0 : / 2147483648 <= r).
  { rewrite E1. apply Rle_trans with (/ 1073741824 * (1 / 2)); [lra|]. apply Rmult_le_compat; lra. }
  assert (R1 : r <= 61). { rewrite E1. nra. }
  assert (BIG : 100000000000 < bpow radix2 1024).
  { apply Rlt_trans with (bpow radix2 40); [change (bpow radix2 40) with 1099511627776; lra|apply bpow_lt; reflexivity]. }
  destruct (bdiv_val (bint 60) (bint iv) F60) as (VR & FR).
  { rewrite Viv. lra. }
  { rewrite V60, Viv. fold q. fold r. rewrite Rabs_pos_eq; lra. }
  rewrite V60, Viv in VR. fold q in VR. fold r in VR.
  set (br := Bdiv mode_NE (bint 60) (bint iv)) in *.
  assert (E : f64_hour_of_step t iv =
    do x <- Ok (B2SF (Bdiv mode_NE (bint t) br)); f64_floor x).
  { unfold f64_hour_of_step. rewrite !bint_sf. rewrite div_step by (rewrite Viv; lra).
    cbn [bind]. fold br. rewrite div_step by (rewrite VR; lra). reflexivity. }
  set (x0 := IZR (t * iv) / 60).
  assert (X : IZR t / r = x0 * / (1 + d1)).
  { rewrite E1. unfold x0, q. rewrite mult_IZR. field. repeat split; lra. }
  destruct (Z.eq_dec t 0) as [T|T].
  - subst t. exists 0.
    assert (Z0 : rnd (0 / r) = 0). { unfold Rdiv. rewrite Rmult_0_l. apply round_0. typeclasses eauto. }
    destruct (bdiv_val (bint 0) br Ft) as (VY & FY).
    { rewrite VR. lra. }
    { rewrite Vt, VR, Z0, Rabs_R0. lra. }
    rewrite E. cbn [bind]. rewrite floor_val by exact FY. rewrite VY, Vt, VR.
    split; [rewrite Z0; reflexivity|]. split; [symmetry; exact Z0|].
    unfold x0. rewrite Z.mul_0_l. replace (0 - 0 / 60) with 0 by lra. rewrite Rabs_R0. lra.
  - assert (X1 : / 60 <= x0).
    { unfold x0, Rdiv. rewrite <- (Rmult_1_l (/ 60)) at 1. apply Rmult_le_compat_r; [lra|]. apply IZR_le. nia. }
    assert (X2 : x0 <= 1073741824).
    { unfold x0. assert (IZR (t * iv) <= 64424509440) by (rewrite <- P30; apply IZR_le; lia). lra. }
    assert (W : 1 - / 4503599627370496 <= / (1 + d1) <= 1 + / 4503599627370496).
    { split.
      - apply Rmult_le_reg_r with (1 + d1); [lra|]. rewrite Rinv_l by lra. nra.
      - apply Rmult_le_reg_r with (1 + d1); [lra|]. rewrite Rinv_l by lra. nra. }
    set (w := / (1 + d1)) in *.
    assert (G : / 120 <= IZR t / r). { rewrite X. nra. }
    destruct (rnd_rel (IZR t / r)) as (d2 & D2 & E2). { rewrite Rabs_pos_eq by lra. lra. }
    rewrite u_val in D2. change (IZR (2 ^ 53)) with 9007199254740992 in D2.
    assert (D2' : - / 9007199254740992 <= d2 <= / 9007199254740992) by (apply Rabs_le_inv; exact D2).
    rewrite X in E2.
    assert (K : Rabs (rnd (IZR t / r) - x0) <= / 200).
    { rewrite X, E2. apply Rabs_le.
      assert (M : - / 1000000000000 <= w * (1 + d2) - 1 <= / 1000000000000) by nra.
      set (v := w * (1 + d2) - 1) in *.
      replace (x0 * w * (1 + d2) - x0) with (x0 * v) by (unfold v; ring). nra. }
    exists (rnd (IZR t / r)).
    destruct (bdiv_val (bint t) br Ft) as (VY & FY).
    { rewrite VR. lra. }
    { rewrite Vt, VR. apply Rabs_le_inv in K. rewrite Rabs_pos_eq; lra. }
    rewrite E. cbn [bind]. rewrite floor_val by exact FY. rewrite VY, Vt, VR.
    split; [reflexivity|]. split; [reflexivity|exact K].
Qed.

Lemma hour_between : forall t iv h : Z, (0 < iv)%Z -> (0 <= t)%Z -> (iv <= 60 * 2 ^ 30)%Z -> (h < 2 ^ 30)%Z ->
  (60 * h < t * iv < 60 * (h + 1))%Z -> f64_hour_of_step t iv = Ok h.
Proof.
  intros t iv h Hiv Ht Hb Hh H.
  destruct (hour_real t iv Hiv Ht ltac:(lia) Hb) as (y & E & _ & B). rewrite E. f_equal.
  apply Zfloor_imp. apply Rabs_le_inv in B.
  assert (A1 : IZR (60 * h + 1) <= IZR (t * iv)) by (apply IZR_le; lia).
  assert (A2 : IZR (t * iv) <= IZR (60 * h + 59)) by (apply IZR_le; lia).
  rewrite plus_IZR, (mult_IZR 60 h) in A1, A2. rewrite plus_IZR. lra.
Qed.

Lemma hour_sharp : forall t iv h : Z, (0 < iv)%Z -> (0 <= t)%Z -> (iv <= 60 * 2 ^ 30)%Z -> (h < 2 ^ 30)%Z ->
  (t * iv = 60 * h)%Z -> f64_hour_of_step t iv = Ok h \/ f64_hour_of_step t iv = Ok (h - 1)%Z.
Proof.
  intros t iv h Hiv Ht Hb Hh H.
  destruct (hour_real t iv Hiv Ht ltac:(lia) Hb) as (y & E & _ & B). rewrite E. apply Rabs_le_inv in B.
  rewrite H, mult_IZR in B.
  destruct (Rle_or_lt (IZR h) y) as [L|L]; [left|right]; f_equal; apply Zfloor_imp.
  - rewrite plus_IZR. lra.
  - rewrite plus_IZR, minus_IZR. lra.
Qed.

Lemma hour_exact : forall t iv h : Z, (0 < iv)%Z -> (iv | 60)%Z -> (0 <= t)%Z -> (h < 2 ^ 30)%Z ->
  (t * iv = 60 * h)%Z -> f64_hour_of_step t iv = Ok h.
Proof.
  intros t iv h Hiv D Ht Hh H. assert (Hb : (iv <= 60)%Z) by (apply Z.divide_pos_le; [lia|exact D]).
  destruct (hour_real t iv Hiv Ht ltac:(lia) ltac:(lia)) as (y & E & Y & _). rewrite E. f_equal.
  destruct D as (k & Dk). assert (K0 : (0 < k)%Z) by nia. assert (Kt : t = (h * k)%Z) by nia.
  assert (I0 : 0 < IZR iv) by (apply IZR_lt; lia). assert (J0 : 0 < IZR k) by (apply IZR_lt; lia).
  assert (Q : 60 / IZR iv = IZR k). { rewrite Dk, mult_IZR. field. lra. }
  rewrite Q, rnd_int in Y by nia.
  rewrite Kt, mult_IZR in Y. replace (IZR h * IZR k / IZR k) with (IZR h) in Y by (field; lra).
  rewrite rnd_int in Y by nia. rewrite Y. apply Zfloor_IZR.
Qed.
