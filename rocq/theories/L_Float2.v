(** binary64 lemmas: adding a number and taking it away again. *)
From Coq Require Import ZArith Reals SpecFloat Lra Lia.
From Flocq Require Import Core BinarySingleNaN Relative Operations Plus_error.
From Verif Require Import Prelude M_Float L_Float M_Float2 S_Float2.
From Coq Require Import Qreals.
From Coq Require Import Lra.
Open Scope R_scope.

Notation fx := (FLT_exp (-1074) 53).
Notation F := (generic_format radix2 fx).
Local Instance Hp : Prec_gt_0 53 := eq_refl.
Local Instance Hm : Prec_lt_emax 53 1024 := eq_refl.
Local Instance Hne : Exists_NE radix2 fx.
Proof. apply exists_NE_FLT. right. reflexivity. Qed.

Lemma rnd_near : forall z g, F g -> Rabs (rnd z - z) <= Rabs (g - z).
Proof. intros z g Fg. apply (round_N_pt radix2 fx (fun x => negb (Z.even x)) z). exact Fg. Qed.

Lemma rnd_F : forall z, F (rnd z).
Proof. intros z. apply generic_format_round; typeclasses eauto. Qed.

Lemma rnd_id : forall z, F z -> rnd z = z.
Proof. intros z Fz. apply round_generic; [typeclasses eauto|exact Fz]. Qed.

Lemma rnd_mono : forall a b, a <= b -> rnd a <= rnd b.
Proof. intros a b H. apply round_le; [typeclasses eauto|typeclasses eauto|exact H]. Qed.

(** [s] has an even mantissa. *)
Notation even_f s := (NE_prop radix2 fx 0 s).

(** A number half way between [s] and another nearest float is rounded to [s] exactly if [s] is even. *)
Lemma tie_even : forall z s o, F o -> rnd z = s -> o <> s -> Rabs (o - z) = Rabs (s - z) -> even_f s.
Proof.
  intros z s o Fo E N D. pose proof (round_NE_pt radix2 fx z) as [[Fr P] Q]. fold (ZnearestE) in *.
  change (round radix2 fx ZnearestE z) with (rnd z) in *. rewrite E in *. destruct Q as [Q|Q]; [exact Q|].
  elim N. apply Q. split; [exact Fo|]. intros g Fg. rewrite D. apply P. exact Fg.
Qed.

Lemma even_tie : forall z s, F s -> even_f s -> (forall g, F g -> Rabs (s - z) <= Rabs (g - z)) -> rnd z = s.
Proof.
  intros z s Fs E P. change (rnd z) with (round radix2 fx ZnearestE z).
  assert (H : Rnd_NE_pt radix2 fx z s).
  { split; [split; [exact Fs|exact P]|]. left. exact E. }
  exact (round_unique (Rnd_NE_pt radix2 fx) (Rnd_NE_pt_monotone radix2 fx) z _ _ (round_NE_pt radix2 fx z) H).
Qed.

(** Distance from a number next to [s] to every float. *)
Lemma near_above : forall s e g, 0 < s -> F s -> F g -> 0 <= e <= ulp radix2 fx s / 2 -> Rabs (s - (s + e)) <= Rabs (g - (s + e)).
Proof.
  intros s e g P Fs Fg [He1 He2]. replace (s - (s + e)) with (- e) by ring. rewrite Rabs_Ropp, (Rabs_pos_eq e) by exact He1.
  destruct (Rle_or_lt g s) as [C|C].
  - rewrite Rabs_left1 by lra. lra.
  - pose proof (succ_le_lt radix2 fx s g Fs Fg C) as X. rewrite succ_eq_pos in X by lra.
    rewrite Rabs_pos_eq by lra. lra.
Qed.
Lemma near_below : forall s e g, 0 < s -> F s -> F g -> 0 <= e <= (s - pred radix2 fx s) / 2 ->
  Rabs (s - (s - e)) <= Rabs (g - (s - e)).
Proof.
  intros s e g P Fs Fg [He1 He2]. replace (s - (s - e)) with e by ring. rewrite (Rabs_pos_eq e) by exact He1.
  destruct (Rle_or_lt s g) as [C|C].
  - rewrite Rabs_pos_eq by lra. lra.
  - pose proof (pred_ge_gt radix2 fx g s Fg Fs C) as X. rewrite Rabs_left1 by lra. lra.
Qed.

(** The gap below a positive float is its ulp, or half of it, and then the float is even. *)
Lemma gap_below : forall s, 0 < s -> F s ->
  s - pred radix2 fx s = ulp radix2 fx s \/ (s - pred radix2 fx s < ulp radix2 fx s /\ even_f s).
Proof.
  intros s P Fs. rewrite pred_eq_pos by lra. unfold pred_pos. case Req_bool_spec; intros E; [|left; ring].
  set (k := (mag radix2 s - 1)%Z) in *.
  assert (M : (mag radix2 s = k + 1 :> Z)%Z) by (unfold k; ring).
  assert (U : ulp radix2 fx s = bpow radix2 (fx (k + 1))).
  { rewrite ulp_neq_0 by lra. unfold cexp. rewrite M. reflexivity. }
  rewrite U. destruct (Z.eq_dec (fx k) (fx (k + 1))) as [X|X]; [left; rewrite X; ring|right].
  assert (L : (fx k < fx (k + 1))%Z) by (unfold FLT_exp in *; lia).
  split; [replace (s - (s - bpow radix2 (fx k))) with (bpow radix2 (fx k)) by ring; apply bpow_lt; exact L|].
  assert (K : fx (k + 1) = (k - 52)%Z) by (unfold FLT_exp in *; lia).
  exists (Float radix2 (2 ^ 52) (k - 52)). split; [|split].
  - rewrite E. unfold F2R. cbn [Fnum Fexp]. change (IZR (2 ^ 52)) with (bpow radix2 52). rewrite <- bpow_plus. f_equal. ring.
  - unfold canonical. cbn [Fexp]. unfold cexp.
    replace (F2R (Float radix2 (2 ^ 52) (k - 52))) with s.
    + rewrite M. symmetry. exact K.
    + rewrite E. unfold F2R. cbn [Fnum Fexp]. change (IZR (2 ^ 52)) with (bpow radix2 52). rewrite <- bpow_plus. f_equal. ring.
  - reflexivity.
Qed.

Lemma ulp_pos : forall z, 0 < ulp radix2 fx z.
Proof.
  intros z. destruct (Req_dec z 0) as [E|E].
  - rewrite E, ulp_FLT_0; [apply bpow_gt_0|typeclasses eauto].
  - rewrite ulp_neq_0 by exact E. apply bpow_gt_0.
Qed.

(** After one round trip the sum is reached again: nothing changes any more. *)
Lemma settle : forall x r, F x -> F r -> 0 < x -> 0 < r -> rnd (rnd (rnd (x + r) - r) + r) = rnd (x + r).
Proof.
  intros x r Fx Fr Px Pr. set (s := rnd (x + r)). set (d := s - r). set (y := rnd d).
  assert (Fs : F s) by apply rnd_F. assert (Fy : F y) by apply rnd_F.
  assert (Rs : r <= s) by (rewrite <- (rnd_id r Fr); apply rnd_mono; lra).
  assert (Ps : 0 < s) by lra.
  assert (Py : 0 <= y) by (rewrite <- (rnd_id 0 (generic_format_0 _ _)); apply rnd_mono; unfold d; lra).
  assert (Dys : d < s) by (unfold d; lra).
  pose proof (rnd_near d x Fx) as N. fold y in N.
  set (t := x - d) in *. set (t' := y - d) in *.
  assert (Et : x + r = s + t) by (unfold t, d; ring). assert (Et' : y + r = s + t') by (unfold t', d; ring).
  assert (Hs : rnd (s + t) = s) by (rewrite <- Et; reflexivity).
  rewrite Et'. pose proof (rnd_id s Fs) as Is.
  assert (UA : t <= ulp radix2 fx s / 2).
  { destruct (Rle_or_lt t (ulp radix2 fx s / 2)) as [C|C]; [exact C|]. exfalso.
    pose proof (round_N_ge_midp radix2 fx (fun z => negb (Z.even z)) (succ radix2 fx s) (s + t)
                  (generic_format_succ radix2 fx s Fs)) as X.
    rewrite (pred_succ radix2 fx s Fs) in X. rewrite succ_eq_pos in X by lra.
    rewrite Hs in X. pose proof (ulp_ge_0 radix2 fx s). assert (s + ulp radix2 fx s <= s) by (apply X; lra).
    assert (0 < ulp radix2 fx s) by (rewrite ulp_neq_0 by lra; apply bpow_gt_0). lra. }
  assert (GP : pred radix2 fx s < s) by (apply pred_lt_id; lra).
  assert (UB : - t <= (s - pred radix2 fx s) / 2).
  { destruct (Rle_or_lt (- t) ((s - pred radix2 fx s) / 2)) as [C|C]; [exact C|]. exfalso.
    pose proof (round_N_le_midp radix2 fx (fun z => negb (Z.even z)) (pred radix2 fx s) (s + t)
                  (generic_format_pred radix2 fx s Fs)) as X.
    rewrite (succ_pred radix2 fx s Fs) in X. rewrite Hs in X. assert (s <= pred radix2 fx s) by (apply X; lra). lra. }
  assert (G : s - pred radix2 fx s <= ulp radix2 fx s) by (destruct (gap_below s Ps Fs) as [?|[? _]]; lra).
  destruct (Rle_or_lt 0 t) as [C|C]; destruct (Rle_or_lt 0 t') as [C'|C'].
  - (* same side *)
    rewrite !Rabs_pos_eq in N by assumption. apply Rle_antisym.
    + rewrite <- Hs at 2. apply rnd_mono. lra.
    + rewrite <- Is at 1. apply rnd_mono. lra.
  - (* the sum was rounded down, the difference too *)
    rewrite (Rabs_pos_eq t) in N by exact C. rewrite Rabs_left in N by exact C'.
    assert (HY : - t' <= ulp radix2 fx y / 2).
    { destruct (Rle_or_lt (- t') (ulp radix2 fx y / 2)) as [K|K]; [exact K|]. exfalso.
      pose proof (round_N_ge_midp radix2 fx (fun z => negb (Z.even z)) (succ radix2 fx y) d
                    (generic_format_succ radix2 fx y Fy)) as X.
      rewrite (pred_succ radix2 fx y Fy) in X. rewrite succ_eq_pos in X by lra. fold y in X.
      pose proof (ulp_pos y).
      assert (y + ulp radix2 fx y <= y) by (apply X; unfold t' in K; lra). unfold t' in C', K. lra. }
    assert (YS : y < s) by (unfold t' in C'; lra).
    assert (SY : y <= pred radix2 fx s) by exact (pred_ge_gt radix2 fx y s Fy Fs YS).
    assert (UY : ulp radix2 fx y <= s - pred radix2 fx s).
    { pose proof (pred_ge_0 radix2 fx s Ps Fs) as P0.
      pose proof (succ_pred radix2 fx s Fs) as X. rewrite succ_eq_pos in X by exact P0.
      assert (ulp radix2 fx y <= ulp radix2 fx (pred radix2 fx s)).
      { apply ulp_le; [typeclasses eauto|typeclasses eauto|]. rewrite !Rabs_pos_eq by lra. exact SY. }
      lra. }
    assert (NB : forall g, F g -> Rabs (s - (s + t')) <= Rabs (g - (s + t'))).
    { intros g Fg. replace (s + t') with (s - (- t')) by ring. apply near_below; try assumption. lra. }
    destruct (Rlt_or_le (- t') ((s - pred radix2 fx s) / 2)) as [K|K].
    + apply Rle_antisym.
      * rewrite <- Is at 2. apply rnd_mono. lra.
      * apply round_N_ge_midp; [typeclasses eauto|exact Fs|]. lra.
    + apply even_tie; try assumption.
      destruct (gap_below s Ps Fs) as [E|[_ E]]; [|exact E].
      assert (XY : succ radix2 fx y <= x).
      { apply (succ_le_lt radix2 fx y x Fy Fx). unfold t, t' in *. lra. }
      rewrite succ_eq_pos in XY by exact Py.
      apply (tie_even (s + t) s (succ radix2 fx s)); [apply generic_format_succ; [typeclasses eauto|exact Fs]|exact Hs| |].
      * rewrite succ_eq_pos by lra. assert (0 < ulp radix2 fx s) by (rewrite ulp_neq_0 by lra; apply bpow_gt_0). lra.
      * rewrite succ_eq_pos by lra. assert (t = ulp radix2 fx s / 2) by (unfold t, t' in *; lra).
        rewrite Rabs_pos_eq by lra. rewrite Rabs_left1 by lra. lra.
  - (* the sum was rounded up, the difference too *)
    rewrite (Rabs_pos_eq t') in N by exact C'. rewrite (Rabs_left t) in N by exact C.
    assert (NA : forall g, F g -> Rabs (s - (s + t')) <= Rabs (g - (s + t'))).
    { intros g Fg. apply near_above; try assumption. lra. }
    destruct (Rlt_or_le t' (ulp radix2 fx s / 2)) as [K|K].
    + apply Rle_antisym.
      * apply round_N_le_midp; [typeclasses eauto|exact Fs|]. rewrite succ_eq_pos by lra. lra.
      * rewrite <- Is at 1. apply rnd_mono. lra.
    + apply even_tie; try assumption.
      apply (tie_even (s + t) s (pred radix2 fx s)); [apply generic_format_pred; [typeclasses eauto|exact Fs]|exact Hs|lra|].
      rewrite Rabs_left1 by lra. rewrite Rabs_pos_eq by lra. lra.
  - rewrite (Rabs_left t) in N by exact C. rewrite Rabs_left in N by exact C'. apply Rle_antisym.
    + rewrite <- Is at 2. apply rnd_mono. lra.
    + rewrite <- Hs at 1. apply rnd_mono. lra.
Qed.

(** One round trip moves the number by at most one part in 2^52 of the sum. *)
Lemma drift : forall x r, F x -> F r -> 0 < x -> 0 < r ->
  Rabs (rnd (rnd (x + r) - r) - x) <= (x + r) / IZR (2 ^ 52).
Proof.
  intros x r Fx Fr Px Pr. set (s := rnd (x + r)). pose proof (rnd_near (s - r) x Fx) as N.
  destruct (FLT_plus_error_N_ex radix2 (-1074) 53 (fun z => negb (Z.even z)) x r Fx Fr) as (eps & B & E).
  assert (Hu : u_ro radix2 53 = / IZR (2 ^ 53)).
  { exact u_val. }
  assert (B2 : Rabs eps <= / IZR (2 ^ 53)).
  { eapply Rle_trans; [exact B|]. rewrite Hu. assert (0 < / IZR (2 ^ 53)) by (apply Rinv_0_lt_compat; apply IZR_lt; reflexivity).
    set (w := / IZR (2 ^ 53)) in *. apply Rmult_le_reg_r with (1 + w); [lra|].
    unfold Rdiv. rewrite Rmult_assoc, Rinv_l by lra. nra. }
  assert (D : Rabs (x - (s - r)) <= (x + r) / IZR (2 ^ 53)).
  { unfold s. rewrite E. replace (x - ((x + r) * (1 + eps) - r)) with (- ((x + r) * eps)) by ring.
    rewrite Rabs_Ropp, Rabs_mult, (Rabs_pos_eq (x + r)) by lra. unfold Rdiv. apply Rmult_le_compat_l; lra. }
  replace (rnd (s - r) - x) with ((rnd (s - r) - (s - r)) - (x - (s - r))) by ring.
  eapply Rle_trans; [apply Rabs_triang|]. rewrite Rabs_Ropp.
  assert ((x + r) / IZR (2 ^ 52) = (x + r) / IZR (2 ^ 53) + (x + r) / IZR (2 ^ 53)).
  { change (2 ^ 53)%Z with (2 * 2 ^ 52)%Z. rewrite mult_IZR. field. apply IZR_neq. discriminate. }
  lra.
Qed.

(** *** Executable specification *)

Lemma norm_sf : forall m e, SpecFloat.binary_normalize 53 1024 m e false = B2SF (binary_normalize 53 1024 Hp Hm mode_NE m e false).
Proof.
  intros m e. unfold SpecFloat.binary_normalize, binary_normalize.
  destruct m as [|p|p]; [reflexivity| |]; rewrite B2SF_SF2B;
  unfold SpecFloat.binary_round, binary_round, shl_align_fexp;
  destruct (shl_align _ _ _) as [mz ez]; apply aux_equiv.
Qed.

Lemma badd_sf : forall x y : binary_float 53 1024, SFadd 53 1024 (B2SF x) (B2SF y) = B2SF (Bplus mode_NE x y).
Proof.
  intros x y. destruct x as [sx|sx| |sx mx ex Bx]; destruct y as [sy|sy| |sy my ey By]; try reflexivity.
  - cbn. destruct (Bool.eqb sx sy); reflexivity.
  - cbn. destruct (Bool.eqb sx sy); reflexivity.
  - cbn [B2SF SFadd Bplus]. cbv zeta. rewrite norm_sf. reflexivity.
Qed.

Lemma bsub_sf : forall x y : binary_float 53 1024, SFsub 53 1024 (B2SF x) (B2SF y) = B2SF (Bminus mode_NE x y).
Proof.
  intros x y. destruct x as [sx|sx| |sx mx ex Bx]; destruct y as [sy|sy| |sy my ey By]; try reflexivity.
  - cbn. destruct (Bool.eqb sx (negb sy)); reflexivity.
  - cbn. destruct (Bool.eqb sx (negb sy)); reflexivity.
  - cbn [B2SF SFsub Bminus]. cbv zeta. rewrite norm_sf. unfold Bminus, Bplus, Bopp, Fplus_naive. cbn.
    f_equal. f_equal. destruct sy; cbn; lia.
Qed.

(** *** Values *)

Lemma val_R : forall x, Q2R (f64_val x) = SF2R radix2 x.
Proof.
  intros [s|s| |s m e]; try (cbn; unfold Q2R; cbn; lra).
  cbn [f64_val SF2R]. unfold F2R. cbn [Fnum Fexp].
  replace (if s then Z.neg m else Z.pos m) with (cond_Zopp s (Z.pos m)) by (destruct s; reflexivity).
  set (z := cond_Zopp s (Z.pos m)). destruct (0 <=? e)%Z eqn:Ee.
  - apply Z.leb_le in Ee. unfold Q2R, inject_Z. cbn [Qnum Qden]. rewrite mult_IZR.
    change 2%Z with (radix_val radix2). rewrite IZR_Zpower by exact Ee. field.
  - apply Z.leb_gt in Ee. unfold Q2R. cbn [Qnum Qden].
    assert (P : (0 < 2 ^ (- e))%Z) by (apply Z.pow_pos_nonneg; lia).
    rewrite Z2Pos.id by exact P. change 2%Z with (radix_val radix2). rewrite IZR_Zpower by lia.
    rewrite <- bpow_opp. rewrite Z.opp_involutive. reflexivity.
Qed.

Lemma finite_B : forall x, f64_finite x -> exists b : binary_float 53 1024, x = B2SF b /\ is_finite b = true /\ B2R b = Q2R (f64_val x).
Proof.
  intros x [V Fx]. exists (SF2B x V). split; [symmetry; apply B2SF_SF2B|]. split.
  - destruct x; try contradiction; reflexivity.
  - rewrite B2R_SF2B, val_R. reflexivity.
Qed.
Lemma B_finite : forall b : binary_float 53 1024, is_finite b = true -> f64_finite (B2SF b) /\ Q2R (f64_val (B2SF b)) = B2R b.
Proof.
  intros b Hb. split; [split; [apply valid_binary_B2SF|destruct b; try discriminate; exact I]|].
  rewrite val_R. apply SF2R_B2SF.
Qed.

Lemma B_F : forall b : binary_float 53 1024, F (B2R b).
Proof. intros b. apply (generic_format_B2R 53 1024). Qed.

Lemma pos_strict : forall b : binary_float 53 1024, is_finite b = true -> B2R b <> 0 -> is_finite_strict b = true.
Proof. intros b H N. destruct b; try discriminate; [elim N; reflexivity|reflexivity]. Qed.

(** One round trip on Flocq's numbers. *)
Lemma trip_B : forall x r : binary_float 53 1024, is_finite x = true -> is_finite r = true -> 0 <= B2R x -> 0 < B2R r ->
  B2R x + B2R r <= bpow radix2 1023 ->
  exists s y : binary_float 53 1024, f64_add (B2SF x) (B2SF r) = B2SF s /\ f64_sub (B2SF s) (B2SF r) = B2SF y /\
    is_finite s = true /\ is_finite y = true /\ B2R s = rnd (B2R x + B2R r) /\ B2R y = rnd (B2R s - B2R r) /\
    y = Bminus mode_NE s r.
Proof.
  intros x r Fx Fr Px Pr L. exists (Bplus mode_NE x r), (Bminus mode_NE (Bplus mode_NE x r) r).
  unfold f64_add, f64_sub. rewrite badd_sf, bsub_sf. split; [reflexivity|]. split; [reflexivity|].
  assert (S0 : 0 <= rnd (B2R x + B2R r)) by (rewrite <- (rnd_id 0 (generic_format_0 _ _)); apply rnd_mono; lra).
  assert (F1023 : F (bpow radix2 1023)).
  { apply generic_format_bpow. unfold FLT_exp. lia. }
  assert (S1 : rnd (B2R x + B2R r) <= bpow radix2 1023) by (rewrite <- (rnd_id _ F1023); apply rnd_mono; exact L).
  assert (LT : bpow radix2 1023 < bpow radix2 1024) by (apply bpow_lt; reflexivity).
  pose proof (Bplus_correct 53 1024 Hp Hm mode_NE x r Fx Fr) as H.
  change (round radix2 (SpecFloat.fexp 53 1024) (round_mode mode_NE) (B2R x + B2R r)) with (rnd (B2R x + B2R r)) in H.
  rewrite Rlt_bool_true in H by (rewrite Rabs_pos_eq by exact S0; lra). destruct H as (A & B & _).
  set (s := Bplus mode_NE x r) in *.
  assert (Fr' := B_F r). assert (Rs : B2R r <= B2R s) by (rewrite A; rewrite <- (rnd_id (B2R r) Fr') at 1; apply rnd_mono; lra).
  assert (Y0 : 0 <= rnd (B2R s - B2R r)) by (rewrite <- (rnd_id 0 (generic_format_0 _ _)); apply rnd_mono; lra).
  assert (Y1 : rnd (B2R s - B2R r) <= bpow radix2 1023).
  { rewrite <- (rnd_id _ F1023). apply rnd_mono. rewrite A. lra. }
  pose proof (Bminus_correct 53 1024 Hp Hm mode_NE s r B Fr) as H.
  change (round radix2 (SpecFloat.fexp 53 1024) (round_mode mode_NE) (B2R s - B2R r)) with (rnd (B2R s - B2R r)) in H.
  rewrite Rlt_bool_true in H by (rewrite Rabs_pos_eq by exact Y0; lra). destruct H as (A' & B' & _).
  repeat split; assumption.
Qed.

Lemma pos_R : forall x, f64_positive x -> 0 < Q2R (f64_val x).
Proof. intros x [_ P]. replace 0 with (Q2R 0) by (unfold Q2R; cbn; lra). apply Qlt_Rlt. exact P. Qed.

Lemma sum_R : forall x r, (f64_val x + f64_val r <= inject_Z (2 ^ 1023))%Q ->
  Q2R (f64_val x) + Q2R (f64_val r) <= bpow radix2 1023.
Proof.
  intros x r H. rewrite <- Q2R_plus. replace (bpow radix2 1023) with (Q2R (inject_Z (2 ^ 1023))).
  - apply Qle_Rle. exact H.
  - unfold Q2R, inject_Z. cbn [Qnum Qden]. rewrite <- (IZR_Zpower radix2 1023) by lia.
    change (Zpower radix2 1023) with (2 ^ 1023)%Z. field.
Qed.

Lemma trip_drift : forall x r, f64_positive x -> f64_positive r -> (f64_val x + f64_val r <= inject_Z (2 ^ 1023))%Q ->
  f64_finite (f64_trip x r) /\
  (Qabs (f64_val (f64_trip x r) - f64_val x) <= (f64_val x + f64_val r) / inject_Z (2 ^ 52))%Q.
Proof.
  intros x r Px Pr L. apply sum_R in L. pose proof (pos_R x Px) as Rx. pose proof (pos_R r Pr) as Rr.
  destruct (finite_B x (proj1 Px)) as (bx & Ex & Fx & Vx). destruct (finite_B r (proj1 Pr)) as (br & Er & Fr & Vr).
  rewrite <- Vx in *. rewrite <- Vr in *.
  destruct (trip_B bx br Fx Fr ltac:(lra) Rr L) as (s & y & A & B & Fs & Fy & Vs & Vy & _).
  assert (ET : f64_trip x r = B2SF y) by (unfold f64_trip; rewrite Ex, Er, A, B; reflexivity). rewrite ET.
  destruct (B_finite y Fy) as (G & V). split; [exact G|].
  apply Rle_Qle. rewrite Q2R_div by discriminate. rewrite Q2R_plus, <- Vx, <- Vr.
  replace (Q2R (inject_Z (2 ^ 52))) with (IZR (2 ^ 52)) by (unfold Q2R, inject_Z; cbn [Qnum Qden]; field).
  assert (AB : forall q, Q2R (Qabs q) = Rabs (Q2R q)).
  { intros q. apply Qabs_case; intros Hq.
    - apply Qle_Rle in Hq. rewrite RMicromega.Q2R_0 in Hq. rewrite Rabs_pos_eq by exact Hq. reflexivity.
    - apply Qle_Rle in Hq. rewrite RMicromega.Q2R_0 in Hq. rewrite Rabs_left1 by exact Hq. apply Q2R_opp. }
  rewrite AB, Q2R_minus, V, <- Vx, Vy, Vs. apply drift; try apply B_F; assumption.
Qed.

Lemma trip_settles : forall x r, f64_positive x -> f64_positive r -> (f64_val x + f64_val r <= inject_Z (2 ^ 1023))%Q ->
  f64_trip (f64_trip x r) r = f64_trip x r.
Proof.
  intros x r Px Pr L. apply sum_R in L. pose proof (pos_R x Px) as Rx. pose proof (pos_R r Pr) as Rr.
  destruct (finite_B x (proj1 Px)) as (bx & Ex & Fx & Vx). destruct (finite_B r (proj1 Pr)) as (br & Er & Fr & Vr).
  rewrite <- Vx in *. rewrite <- Vr in *.
  destruct (trip_B bx br Fx Fr ltac:(lra) Rr L) as (s & y & A & B & Fs & Fy & Vs & Vy & Ey).
  unfold f64_trip. rewrite Ex, Er. rewrite A, B.
  unfold f64_add. rewrite badd_sf.
  assert (E : Bplus mode_NE y br = s).
  { pose proof (settle (B2R bx) (B2R br) (B_F bx) (B_F br) Rx Rr) as T. rewrite <- Vs, <- Vy in T.
    assert (Frr := B_F br).
    assert (Rs : B2R br <= B2R s) by (rewrite Vs; rewrite <- (rnd_id (B2R br) Frr) at 1; apply rnd_mono; lra).
    pose proof (Bplus_correct 53 1024 Hp Hm mode_NE y br Fy Fr) as H.
    change (round radix2 (SpecFloat.fexp 53 1024) (round_mode mode_NE) (B2R y + B2R br)) with (rnd (B2R y + B2R br)) in H.
    rewrite T in H. rewrite Rlt_bool_true in H by apply abs_B2R_lt_emax. destruct H as (H1 & H2 & _).
    apply B2R_inj; [apply pos_strict; [exact H2|lra]|apply pos_strict; [exact Fs|lra]|exact H1]. }
  rewrite E. unfold f64_sub. rewrite bsub_sf, <- Ey. reflexivity.
Qed.

Lemma trip_exact : forall x r z, f64_positive x -> f64_positive r -> f64_finite z ->
  (f64_val z == f64_val x + f64_val r)%Q -> (f64_val x + f64_val r <= inject_Z (2 ^ 1023))%Q -> f64_trip x r = x.
Proof.
  intros x r z Px Pr Fz Ez L. apply sum_R in L. pose proof (pos_R x Px) as Rx. pose proof (pos_R r Pr) as Rr.
  destruct (finite_B x (proj1 Px)) as (bx & Ex & Fx & Vx). destruct (finite_B r (proj1 Pr)) as (br & Er & Fr & Vr).
  destruct (finite_B z Fz) as (bz & _ & _ & Vz). apply Qeq_eqR in Ez. rewrite Q2R_plus in Ez.
  rewrite <- Vx, <- Vr in *. rewrite <- Vz in Ez.
  destruct (trip_B bx br Fx Fr ltac:(lra) Rr L) as (s & y & A & B & Fs & Fy & Vs & Vy & Ey).
  unfold f64_trip. rewrite Ex, Er. rewrite A, B. f_equal.
  assert (Ss : B2R s = B2R bx + B2R br) by (rewrite Vs; apply rnd_id; rewrite <- Ez; apply B_F).
  assert (Sy : B2R y = B2R bx).
  { rewrite Vy, Ss. replace (B2R bx + B2R br - B2R br) with (B2R bx) by ring. apply rnd_id. apply B_F. }
  apply B2R_inj; [apply pos_strict; [exact Fy|lra]|apply pos_strict; [exact Fx|lra]|exact Sy].
Qed.
