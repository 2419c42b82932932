(** binary64 lemmas: the rounding error of each operation, in rational terms. *)
From Coq Require Import ZArith Reals SpecFloat Lra Lia.
From Flocq Require Import Core BinarySingleNaN Relative Operations Plus_error.
From Verif Require Import Prelude M_Float L_Float M_Float2 S_Float2 L_Float2 M_Float3.
From Coq Require Import Qreals.
From Coq Require Import Lra.
Open Scope R_scope.

Local Instance Hp : Prec_gt_0 53 := eq_refl.
Local Instance Hm : Prec_lt_emax 53 1024 := eq_refl.

Lemma bmul_sf : forall x y : binary_float 53 1024, SFmul 53 1024 (B2SF x) (B2SF y) = B2SF (Bmult mode_NE x y).
Proof.
  intros x y. destruct x as [sx|sx| |sx mx ex Bx]; destruct y as [sy|sy| |sy my ey By]; try reflexivity.
  cbn [B2SF SFmul Bmult]. rewrite B2SF_SF2B. apply aux_equiv.
Qed.

(** Below this magnitude nothing overflows; this much can be lost to underflow; and the unit roundoff. *)
Definition f64_big : Q := inject_Z (2 ^ 1000).
Definition f64_eta : Q := 1 # 2 ^ 1075.
Definition f64_u : Q := 1 # 2 ^ 53.

Lemma Q2R_abs : forall q, Q2R (Qabs q) = Rabs (Q2R q).
Proof.
  intros q. apply Qabs_case; intros Hq.
  - apply Qle_Rle in Hq. rewrite RMicromega.Q2R_0 in Hq. rewrite Rabs_pos_eq by exact Hq. reflexivity.
  - apply Qle_Rle in Hq. rewrite RMicromega.Q2R_0 in Hq. rewrite Rabs_left1 by exact Hq. apply Q2R_opp.
Qed.

Lemma big_R : Q2R f64_big = bpow radix2 1000.
Proof.
  unfold f64_big, Q2R, inject_Z. cbn [Qnum Qden]. rewrite <- (IZR_Zpower radix2 1000) by lia.
  change (Zpower radix2 1000) with (2 ^ 1000)%Z. field.
Qed.
Lemma u_R : Q2R f64_u = / 2 * bpow radix2 (-53 + 1).
Proof.
  change (-53 + 1)%Z with (-52)%Z. rewrite u_val. unfold f64_u, Q2R. cbn [Qnum Qden]. rewrite Rmult_1_l. reflexivity.
Qed.
Lemma eta_R : Q2R f64_eta = / 2 * bpow radix2 (-1074).
Proof.
  unfold f64_eta, Q2R. cbn [Qnum Qden]. rewrite Rmult_1_l.
  assert (E : IZR (Z.pos (2 ^ 1075)) = 2 * bpow radix2 1074).
  { rewrite <- (IZR_Zpower radix2 1074) by lia. rewrite <- mult_IZR. apply f_equal. reflexivity. }
  rewrite E, Rinv_mult, <- bpow_opp. reflexivity.
Qed.

Lemma big_F : F (bpow radix2 1000).
Proof. apply generic_format_bpow. unfold FLT_exp. lia. Qed.

Lemma rnd_big : forall z, Rabs z <= bpow radix2 1000 -> Rabs (rnd z) < bpow radix2 1024.
Proof.
  intros z H. apply Rle_lt_trans with (bpow radix2 1000); [|apply bpow_lt; reflexivity].
  pose proof (abs_round_le_generic radix2 fx (Znearest (fun x => negb (Z.even x))) z (bpow radix2 1000) big_F H). assumption.
Qed.

Lemma rnd_err : forall z, Rabs (rnd z - z) <= / 2 * bpow radix2 (-53 + 1) * Rabs z + / 2 * bpow radix2 (-1074).
Proof.
  intros z. destruct (error_N_FLT radix2 (-1074) 53 eq_refl (fun x => negb (Z.even x)) z) as (e & t & He & Ht & _ & E).
  rewrite E. replace (z * (1 + e) + t - z) with (e * z + t) by ring.
  eapply Rle_trans; [apply Rabs_triang|]. apply Rplus_le_compat; [|exact Ht].
  rewrite Rabs_mult. apply Rmult_le_compat_r; [apply Rabs_pos|exact He].
Qed.

Lemma rnd_sum_err : forall x y, F x -> F y -> Rabs (rnd (x + y) - (x + y)) <= / 2 * bpow radix2 (-53 + 1) * Rabs (x + y).
Proof.
  intros x y Fx Fy.
  destruct (FLT_plus_error_N_ex radix2 (-1074) 53 (fun x => negb (Z.even x)) x y Fx Fy) as (e & He & E).
  rewrite E. replace ((x + y) * (1 + e) - (x + y)) with (e * (x + y)) by ring. rewrite Rabs_mult.
  apply Rmult_le_compat_r; [apply Rabs_pos|]. eapply Rle_trans; [exact He|].
  change (/ 2 * bpow radix2 (-53 + 1)) with (u_ro radix2 53).
  assert (P : 0 < u_ro radix2 53) by (unfold u_ro; apply Rmult_lt_0_compat; [lra|apply bpow_gt_0]).
  set (w := u_ro radix2 53) in *. apply Rmult_le_reg_r with (1 + w); [lra|].
  unfold Rdiv. rewrite Rmult_assoc, Rinv_l by lra. nra.
Qed.

Lemma bigQ : forall q, (Qabs q <= f64_big)%Q -> Rabs (Q2R q) <= bpow radix2 1000.
Proof. intros q H. rewrite <- Q2R_abs, <- big_R. apply Qle_Rle. exact H. Qed.

Lemma add_err : forall x y, f64_finite x -> f64_finite y -> (Qabs (f64_val x + f64_val y) <= f64_big)%Q ->
  f64_finite (f64_add x y) /\
  (Qabs (f64_val (f64_add x y) - (f64_val x + f64_val y)) <= f64_u * Qabs (f64_val x + f64_val y))%Q.
Proof.
  intros x y Gx Gy L. destruct (finite_B x Gx) as (bx & Ex & Fx & Vx). destruct (finite_B y Gy) as (b & Ey & Fy & Vy).
  apply bigQ in L. rewrite Q2R_plus, <- Vx, <- Vy in L.
  pose proof (Bplus_correct 53 1024 Hp Hm mode_NE bx b Fx Fy) as H.
  change (round radix2 (SpecFloat.fexp 53 1024) (round_mode mode_NE) (B2R bx + B2R b)) with (rnd (B2R bx + B2R b)) in H.
  rewrite Rlt_bool_true in H by (apply rnd_big; exact L). destruct H as (A & B & _).
  assert (E : f64_add x y = B2SF (Bplus mode_NE bx b)) by (unfold f64_add; rewrite Ex, Ey; apply badd_sf).
  destruct (B_finite _ B) as (G & V). rewrite E. split; [exact G|].
  apply Rle_Qle. rewrite Q2R_mult, !Q2R_abs, Q2R_minus, Q2R_plus, V, <- Vx, <- Vy, A, u_R.
  apply rnd_sum_err; apply B_F.
Qed.

Lemma sub_err : forall x y, f64_finite x -> f64_finite y -> (Qabs (f64_val x - f64_val y) <= f64_big)%Q ->
  f64_finite (f64_sub x y) /\
  (Qabs (f64_val (f64_sub x y) - (f64_val x - f64_val y)) <= f64_u * Qabs (f64_val x - f64_val y))%Q.
Proof.
  intros x y Gx Gy L. destruct (finite_B x Gx) as (bx & Ex & Fx & Vx). destruct (finite_B y Gy) as (b & Ey & Fy & Vy).
  apply bigQ in L. rewrite Q2R_minus, <- Vx, <- Vy in L.
  pose proof (Bminus_correct 53 1024 Hp Hm mode_NE bx b Fx Fy) as H.
  change (round radix2 (SpecFloat.fexp 53 1024) (round_mode mode_NE) (B2R bx - B2R b)) with (rnd (B2R bx - B2R b)) in H.
  rewrite Rlt_bool_true in H by (apply rnd_big; exact L). destruct H as (A & B & _).
  assert (E : f64_sub x y = B2SF (Bminus mode_NE bx b)) by (unfold f64_sub; rewrite Ex, Ey; apply bsub_sf).
  destruct (B_finite _ B) as (G & V). rewrite E. split; [exact G|].
  apply Rle_Qle. rewrite Q2R_mult, !Q2R_abs, !Q2R_minus, V, <- Vx, <- Vy, A, u_R.
  unfold Rminus at 2 3 4. apply rnd_sum_err; [apply B_F|apply generic_format_opp; apply B_F].
Qed.

Lemma mul_err : forall x y, f64_finite x -> f64_finite y -> (Qabs (f64_val x * f64_val y) <= f64_big)%Q ->
  f64_finite (f64_mul x y) /\
  (Qabs (f64_val (f64_mul x y) - f64_val x * f64_val y) <= f64_u * Qabs (f64_val x * f64_val y) + f64_eta)%Q.
Proof.
  intros x y Gx Gy L. destruct (finite_B x Gx) as (bx & Ex & Fx & Vx). destruct (finite_B y Gy) as (b & Ey & Fy & Vy).
  apply bigQ in L. rewrite Q2R_mult, <- Vx, <- Vy in L.
  pose proof (Bmult_correct 53 1024 Hp Hm mode_NE bx b) as H.
  change (round radix2 (SpecFloat.fexp 53 1024) (round_mode mode_NE) (B2R bx * B2R b)) with (rnd (B2R bx * B2R b)) in H.
  rewrite Rlt_bool_true in H by (apply rnd_big; exact L). destruct H as (A & B & _). rewrite Fx, Fy in B.
  assert (E : f64_mul x y = B2SF (Bmult mode_NE bx b)) by (unfold f64_mul; rewrite Ex, Ey; apply bmul_sf).
  destruct (B_finite _ B) as (G & V). rewrite E. split; [exact G|].
  apply Rle_Qle. rewrite Q2R_plus, Q2R_mult, !Q2R_abs, Q2R_minus, !Q2R_mult, V, <- Vx, <- Vy, A, u_R, eta_R.
  apply rnd_err.
Qed.

Lemma div_err : forall x y, f64_finite x -> f64_finite y -> ~ (f64_val y == 0)%Q ->
  (Qabs (f64_val x / f64_val y) <= f64_big)%Q ->
  exists z, f64_div x y = Ok z /\ f64_finite z /\
  (Qabs (f64_val z - f64_val x / f64_val y) <= f64_u * Qabs (f64_val x / f64_val y) + f64_eta)%Q.
Proof.
  intros x y Gx Gy N L. destruct (finite_B x Gx) as (bx & Ex & Fx & Vx). destruct (finite_B y Gy) as (b & Ey & Fy & Vy).
  assert (Nb : B2R b <> 0).
  { rewrite Vy. intro E. apply N. apply eqR_Qeq. rewrite E. symmetry. apply RMicromega.Q2R_0. }
  apply bigQ in L. rewrite Q2R_div, <- Vx, <- Vy in L by exact N.
  destruct (bdiv_val bx b Fx Nb (rnd_big _ L)) as (A & B).
  pose proof (div_step bx b Nb) as D. set (z := Bdiv mode_NE bx b) in *.
  destruct (B_finite _ B) as (G & V). exists (B2SF z).
  split; [rewrite Ex, Ey; exact D|]. split; [exact G|].
  apply Rle_Qle. rewrite Q2R_plus, Q2R_mult, !Q2R_abs, Q2R_minus, !Q2R_div, V, <- Vx, <- Vy, A, u_R, eta_R by exact N.
  apply rnd_err.
Qed.

(** *** Comparisons and negation are exact *)
Lemma ltb_val : forall x y, f64_finite x -> f64_finite y -> SFltb x y = qltb (f64_val x) (f64_val y).
Proof.
  intros x y Gx Gy. destruct (finite_B x Gx) as (bx & Ex & Fx & Vx). destruct (finite_B y Gy) as (b & Ey & Fy & Vy).
  pose proof (Bltb_correct 53 1024 bx b Fx Fy) as H. unfold Bltb in H. rewrite <- Ex, <- Ey, Vx, Vy in H. rewrite H.
  case Rlt_bool_spec; intros C.
  - symmetry. apply qltb_true. apply Rlt_Qlt. exact C.
  - symmetry. apply qltb_false. apply Rle_Qle. exact C.
Qed.
Lemma leb_val : forall x y, f64_finite x -> f64_finite y -> SFleb x y = Qle_bool (f64_val x) (f64_val y).
Proof.
  intros x y Gx Gy. destruct (finite_B x Gx) as (bx & Ex & Fx & Vx). destruct (finite_B y Gy) as (b & Ey & Fy & Vy).
  pose proof (Bleb_correct 53 1024 bx b Fx Fy) as H. unfold Bleb in H. rewrite <- Ex, <- Ey, Vx, Vy in H. rewrite H.
  case Rle_bool_spec; intros C.
  - symmetry. apply qleb_true. apply Rle_Qle. exact C.
  - symmetry. apply qleb_false. apply Rlt_Qlt. exact C.
Qed.
Lemma opp_val : forall x, f64_finite x -> f64_finite (SFopp x) /\ (f64_val (SFopp x) == - f64_val x)%Q.
Proof.
  intros x Gx. destruct (finite_B x Gx) as (bx & Ex & Fx & Vx).
  assert (E : SFopp x = B2SF (Bopp bx)) by (rewrite Ex; destruct bx; reflexivity).
  assert (Fo : is_finite (Bopp bx) = true) by (rewrite is_finite_Bopp; exact Fx).
  destruct (B_finite _ Fo) as (G & V). rewrite E. split; [exact G|].
  apply eqR_Qeq. rewrite V, Q2R_opp, B2R_Bopp, Vx. reflexivity.
Qed.
