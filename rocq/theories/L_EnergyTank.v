(** Facts about the energy tank. *)
From Verif Require Import Prelude S_Integral L_Integral L_Ramp M_StratifiedTank M_EnergyTank S_EnergyTank.
Open Scope Q_scope.

Lemma en_rho_pos : 0 < rho_cp. Proof. reflexivity. Qed.

(** ** The profile-to-energy integral *)
(** Heat above cold per percent of height, accumulated between [cp] and [100], thermocline shift [s]. *)
Definition en_G (m w cp s : Q) : Q := ramp_F 0 m (- s) w 100 - ramp_F 0 m (- s) w cp.

Global Instance pos_compat : Proper (Qeq ==> Qeq) pos.
Proof. intros a b E. unfold pos. rewrite E. reflexivity. Qed.
Global Instance ramp_F_compat : Proper (Qeq ==> Qeq ==> Qeq ==> Qeq ==> Qeq ==> Qeq) ramp_F.
Proof.
  intros c c' Ec m m' Em r r' Er w w' Ew x x' Ex. unfold ramp_F. rewrite Ec, Em, Er, Ew, Ex. reflexivity.
Qed.
Global Instance ramp_compat : Proper (Qeq ==> Qeq ==> Qeq ==> Qeq ==> Qeq ==> Qeq) ramp.
Proof.
  intros c c' Ec h h' Eh m m' Em r r' Er x x' Ex. unfold ramp. rewrite Ec, Eh, Em, Er, Ex. reflexivity.
Qed.

Ltac efin r w cp :=
  qmm; try lra;
  try (assert (E1 : w == cp - r) by lra; rewrite !E1; lra);
  try (assert (E2 : w == 100 - r) by lra; rewrite !E2; lra);
  try (assert (E3 : w == 0) by lra; assert (E4 : r == cp) by lra; rewrite !E3, !E4; lra).

Lemma en_energy_formula m w cp s :
  0 < m -> 0 <= w -> 0 <= cp -> cp < 100 ->
  let a := qmax cp (qmin 100 (- s)) in
  let b := qmax cp (qmin 100 (w - s)) in
  m / 2 * ((b + s) ^ 2 - (a + s) ^ 2) + m * w * (100 - b) == en_G m w cp s.
Proof.
  intros Hm Hw H0 H1. cbv zeta. unfold en_G. set (r := - s). assert (Es : s == - r) by (unfold r; ring).
  assert (Ews : w - s == r + w) by (unfold r; ring). rewrite Ews. rewrite Es. clearbody r. clear s Es Ews.
  destruct (ramp_F_cases 0 m r w 100 Hw) as [X1 [X2 X3]].
  destruct (ramp_F_cases 0 m r w cp Hw) as [Y1 [Y2 Y3]].
  unfold Qdiv. change (/ 2) with (1 # 2).
  destruct (Qlt_le_dec r cp) as [A|A]; [destruct (Qlt_le_dec (r + w) cp) as [A'|A']|];
  (destruct (Qlt_le_dec r 100) as [B|B]; [destruct (Qlt_le_dec (r + w) 100) as [B'|B']|]);
  try (exfalso; lra).
  - rewrite X3, Y3 by lra. efin r w cp.
  - rewrite X3, Y2 by lra. efin r w cp.
  - rewrite X2, Y2 by lra. efin r w cp.
  - rewrite X3, Y1 by lra. efin r w cp.
  - rewrite X2, Y1 by lra. efin r w cp.
  - rewrite X1, Y1 by lra. efin r w cp.
Qed.

Lemma en_G_shift m w cp s :
  en_G m w cp s == ramp_F 0 m 0 w (100 + s) - ramp_F 0 m 0 w (cp + s).
Proof.
  unfold en_G, ramp_F.
  assert (E1 : 100 - - s == 100 + s - 0) by ring. assert (E2 : 100 - (- s + w) == 100 + s - (0 + w)) by ring.
  assert (E3 : cp - - s == cp + s - 0) by ring. assert (E4 : cp - (- s + w) == cp + s - (0 + w)) by ring.
  rewrite E1, E2, E3, E4. ring.
Qed.

Lemma sq0 m w : 0 < m -> 0 <= w -> forall x y, x <= y ->
  ramp 0 (m * w) m 0 x * (y - x) <= ramp_F 0 m 0 w y - ramp_F 0 m 0 w x /\
  ramp_F 0 m 0 w y - ramp_F 0 m 0 w x <= ramp 0 (m * w) m 0 y * (y - x).
Proof.
  intros Hm Hw x y H. apply (ramp_squeezes 0 (m * w) m 0 w x y); try lra.
Qed.

Lemma en_G_mono m w cp s1 s2 :
  0 < m -> 0 <= w -> cp <= 100 -> s1 <= s2 ->
  0 <= en_G m w cp s2 - en_G m w cp s1 /\ en_G m w cp s2 - en_G m w cp s1 <= m * w * (s2 - s1).
Proof.
  intros Hm Hw Hcp Hs. rewrite !en_G_shift.
  pose proof (sq0 m w Hm Hw) as SQ. 
  assert (Hh : 0 <= m * w) by nra.
  pose proof (fun x => ramp_range 0 (m * w) m 0 x Hh) as RR.
  pose proof (fun x y => ramp_mono 0 (m * w) m 0 x y Hm) as RM.
  set (P := ramp_F 0 m 0 w) in *. set (v := ramp 0 (m * w) m 0) in *. clearbody P v.
  split.
  - destruct (Qlt_le_dec (100 + s1) (cp + s2)) as [C|C].
    + destruct (SQ (cp + s2) (100 + s2)) as [A _]; [lra|].
      destruct (SQ (cp + s1) (100 + s1)) as [_ B]; [lra|].
      pose proof (RM (100 + s1) (cp + s2) ltac:(lra)) as M.
      assert (v (100 + s1) * (100 - cp) <= v (cp + s2) * (100 - cp)) by (apply Qmult_le_compat_r; lra).
      lra.
    + destruct (SQ (100 + s1) (100 + s2)) as [A _]; [lra|].
      destruct (SQ (cp + s1) (cp + s2)) as [_ B]; [lra|].
      pose proof (RM (cp + s2) (100 + s1) ltac:(lra)) as M.
      assert (v (cp + s2) * (s2 - s1) <= v (100 + s1) * (s2 - s1)) by (apply Qmult_le_compat_r; lra).
      lra.
  - destruct (SQ (100 + s1) (100 + s2)) as [_ A]; [lra|].
    destruct (SQ (cp + s1) (cp + s2)) as [B _]; [lra|].
    destruct (RR (100 + s2)) as [_ R1]. destruct (RR (cp + s1)) as [R2 _].
    assert (v (100 + s2) * (s2 - s1) <= m * w * (s2 - s1)) by (apply Qmult_le_compat_r; lra).
    assert (0 <= v (cp + s1) * (s2 - s1)) by (apply qmul_nonneg; lra). lra.
Qed.

Lemma en_G_range m w cp s :
  0 < m -> 0 <= w -> cp <= 100 -> 0 <= en_G m w cp s /\ en_G m w cp s <= m * w * (100 - cp).
Proof.
  intros Hm Hw Hcp. rewrite en_G_shift.
  pose proof (sq0 m w Hm Hw) as SQ. assert (Hh : 0 <= m * w) by nra.
  pose proof (fun x => ramp_range 0 (m * w) m 0 x Hh) as RR.
  set (P := ramp_F 0 m 0 w) in *. set (v := ramp 0 (m * w) m 0) in *. clearbody P v.
  destruct (SQ (cp + s) (100 + s)) as [A B]; [lra|].
  destruct (RR (cp + s)) as [A1 _]. destruct (RR (100 + s)) as [_ B1].
  assert (0 <= v (cp + s) * (100 - cp)) by (apply qmul_nonneg; lra).
  assert (v (100 + s) * (100 - cp) <= m * w * (100 - cp)) by (apply Qmult_le_compat_r; lra). lra.
Qed.

Lemma en_G_lo m w cp : 0 < m -> 0 <= w -> cp <= 100 -> en_G m w cp (-100) == 0.
Proof.
  intros Hm Hw Hcp. unfold en_G.
  destruct (ramp_F_cases 0 m (- -100) w 100 Hw) as [X1 _].
  destruct (ramp_F_cases 0 m (- -100) w cp Hw) as [Y1 _]. rewrite X1, Y1 by lra. lra.
Qed.
Lemma en_G_hi m w cp : 0 < m -> 0 <= w -> 0 <= cp -> cp <= 100 -> en_G m w cp w == m * w * (100 - cp).
Proof.
  intros Hm Hw H0 Hcp. unfold en_G.
  destruct (ramp_F_cases 0 m (- w) w 100 Hw) as [_ [_ X3]].
  destruct (ramp_F_cases 0 m (- w) w cp Hw) as [_ [_ Y3]]. rewrite X3, Y3 by lra. lra.
Qed.

(** ** The model's functions in terms of [en_G] *)
Definition en_w (t : entank) : Q := (en_storage t - en_cold t) / en_slope t.
Definition en_L (t : entank) : Q := rho_cp * en_vol t / 100.

Lemma en_w_eq t : 0 < en_slope t -> en_slope t * en_w t == en_storage t - en_cold t.
Proof. intros. unfold en_w. field. lra. Qed.
Lemma en_w_pos t : 0 < en_slope t -> en_cold t < en_storage t -> 0 < en_w t.
Proof. intros. unfold en_w. apply qdiv_pos; lra. Qed.
Lemma en_L_pos t : 0 < en_vol t -> 0 < en_L t.
Proof. intros. unfold en_L. apply qdiv_pos; [|lra]. apply qmul_pos; [reflexivity|assumption]. Qed.

Definition en_e (t : entank) (s : Q) : Q := en_L t * en_G (en_slope t) (en_w t) (en_cold_pct t) s.

Lemma en_energy_at_ok t s :
  en_wf t -> en_cold t < en_storage t ->
  exists e, en_energy_at t s = Ok e /\ e == en_e t s.
Proof.
  intros [HV [Hm [H0 H1]]] Hc. unfold en_energy_at.
  destruct (Qle_bool (en_storage t - en_cold t) 0) eqn:E; qbool; [lra|].
  rewrite qdiv_ok by lra. cbn [bind]. eexists. split; [reflexivity|]. unfold en_e, en_L.
  fold (en_w t).
  pose proof (en_energy_formula (en_slope t) (en_w t) (en_cold_pct t) s Hm) as F.
  pose proof (en_w_pos t Hm Hc). cbv zeta in F. rewrite <- F by lra.
  rewrite (en_w_eq t Hm). reflexivity.
Qed.

Lemma en_max_eq t : 0 < en_slope t -> en_max t == en_L t * (en_slope t * en_w t * (100 - en_cold_pct t)).
Proof. intros H. rewrite (en_w_eq t H). unfold en_max, en_L. field. Qed.
Lemma en_max_full t : en_max t == en_full t.
Proof. unfold en_max, en_full. ring. Qed.

Lemma en_e_range t s : en_wf t -> en_cold t < en_storage t -> 0 <= en_e t s /\ en_e t s <= en_max t.
Proof.
  intros [HV [Hm [H0 H1]]] Hc. pose proof (en_w_pos t Hm Hc). rewrite (en_max_eq t Hm). unfold en_e.
  destruct (en_G_range (en_slope t) (en_w t) (en_cold_pct t) s) as [A B]; try lra.
  pose proof (en_L_pos t HV) as HL. split; [apply qmul_nonneg; lra|].
  apply Qmult_le_l with (z := en_L t); assumption.
Qed.

Lemma en_e_step t s1 s2 : en_wf t -> en_cold t < en_storage t -> s1 <= s2 ->
  0 <= en_e t s2 - en_e t s1 /\
  en_e t s2 - en_e t s1 <= en_L t * (en_storage t - en_cold t) * (s2 - s1).
Proof.
  intros [HV [Hm [H0 H1]]] Hc Hs. pose proof (en_w_pos t Hm Hc). unfold en_e.
  destruct (en_G_mono (en_slope t) (en_w t) (en_cold_pct t) s1 s2) as [A B]; try lra.
  rewrite (en_w_eq t Hm) in B. pose proof (en_L_pos t HV) as HL.
  set (g1 := en_G _ _ _ s1) in *. set (g2 := en_G _ _ _ s2) in *. set (L := en_L t) in *.
  set (D := (en_storage t - en_cold t) * (s2 - s1)) in *.
  assert (L * 0 <= L * (g2 - g1)) by (apply Qmult_le_l with (z := L); lra).
  assert (L * (g2 - g1) <= L * D) by (apply Qmult_le_l with (z := L); lra).
  unfold D in *. split; lra.
Qed.

Global Instance en_G_compat : Proper (Qeq ==> Qeq ==> Qeq ==> Qeq ==> Qeq) en_G.
Proof. intros m m' Em w w' Ew c c' Ec s s' Es. unfold en_G. rewrite Em, Ew, Ec, Es. reflexivity. Qed.
Lemma en_e_eq t s s' : s == s' -> en_e t s == en_e t s'.
Proof. intros E. unfold en_e. rewrite E. reflexivity. Qed.

(** ** The search *)
Fixpoint epow2 (n : nat) : Q := match n with O => 1 | S k => 2 * epow2 k end.
Lemma epow2_pos n : 0 < epow2 n.
Proof. induction n; simpl; [reflexivity|lra]. Qed.

Lemma en_search_ok t E tol : en_wf t -> en_cold t < en_storage t ->
  forall n lo hi, lo <= hi -> en_e t lo <= E -> E <= en_e t hi -> 0 <= tol ->
  exists s, en_search n t E tol lo hi = Ok s /\ lo <= s /\ s <= hi /\
    (Qabs (en_e t s - E) <= tol \/
     Qabs (en_e t s - E) <= en_L t * (en_storage t - en_cold t) * ((hi - lo) / (2 * epow2 n))).
Proof.
  intros W Hc. induction n as [|n IH]; intros lo hi Hlh Hlo Hhi Ht; cbn [en_search].
  - eexists. split; [reflexivity|]. repeat split; try lra. right. cbn [epow2].
    destruct (en_e_step t lo ((lo + hi) * (1 # 2)) W Hc) as [A1 A2]; [lra|].
    destruct (en_e_step t ((lo + hi) * (1 # 2)) hi W Hc) as [B1 B2]; [lra|].
    set (K := en_L t * (en_storage t - en_cold t)) in *.
    assert (E1 : K * ((hi - lo) / (2 * 1)) == K * (hi - (lo + hi) * (1 # 2))) by field.
    assert (E2 : K * ((hi - lo) / (2 * 1)) == K * ((lo + hi) * (1 # 2) - lo)) by field.
    apply Qabs_Qle_condition. split; lra.
  - destruct (en_energy_at_ok t (Qred ((lo + hi) * (1 # 2))) W Hc) as [e [Ee He]]. rewrite Ee. cbn [bind].
    assert (Em : en_e t (Qred ((lo + hi) * (1 # 2))) == en_e t ((lo + hi) * (1 # 2))) by (apply en_e_eq, Qred_correct).
    pose proof (Qred_correct ((lo + hi) * (1 # 2))) as ER.
    destruct (qltb (Qabs (e - E)) tol) eqn:C1; qbool.
    { eexists. split; [reflexivity|]. repeat split; try lra. left.
      rewrite Em in He. rewrite <- He. lra. }
    assert (P : 0 < epow2 n) by apply epow2_pos.
    destruct (qltb e E) eqn:C2; qbool.
    + destruct (IH (Qred ((lo + hi) * (1 # 2))) hi) as [s [Es [S1 [S2 S3]]]]; try lra.
      exists s. split; [exact Es|]. repeat split; try lra.
      destruct S3 as [S3|S3]; [left; exact S3|right].
      eapply Qle_trans; [exact S3|]. apply Qle_lteq. right. cbn [epow2]. rewrite ER. field. lra.
    + destruct (IH lo (Qred ((lo + hi) * (1 # 2)))) as [s [Es [S1 [S2 S3]]]]; try lra.
      exists s. split; [exact Es|]. repeat split; try lra.
      destruct S3 as [S3|S3]; [left; exact S3|right].
      eapply Qle_trans; [exact S3|]. apply Qle_lteq. right. cbn [epow2]. rewrite ER. field. lra.
Qed.

Lemma en_tol_nonneg t : en_wf t -> en_cold t < en_storage t -> 0 <= en_tol t.
Proof.
  intros [HV [Hm _]] Hc. unfold en_tol. pose proof (qmax_r (en_energy t) 1).
  pose proof (en_w_pos t Hm Hc) as Hw. unfold en_w in Hw. pose proof (en_L_pos t HV) as HL. unfold en_L in HL.
  assert (0 <= rho_cp * en_vol t / 100 * (en_storage t - en_cold t)
    * (100 + (en_storage t - en_cold t) / en_slope t) / inject_Z (2 ^ 31)).
  { apply qdiv_nonneg; [|reflexivity]. apply qmul_nonneg; [apply qmul_nonneg; lra|lra]. }
  lra.
Qed.

(** The energy clamped to the physical range, and the shift that represents it. *)
Definition en_clamped (t : entank) : Q := qmax 0 (qmin (en_energy t) (en_max t)).

Lemma en_max_pos t : en_wf t -> en_cold t < en_storage t -> 0 < en_max t.
Proof.
  intros [HV [Hm [H0 H1]]] Hc. rewrite (en_max_eq t Hm), (en_w_eq t Hm).
  apply qmul_pos; [apply en_L_pos, HV|]. apply qmul_pos; lra.
Qed.

Lemma en_shift_ok t : en_wf t -> en_cold t < en_storage t ->
  exists s, en_shift t = Ok s /\ -100 <= s /\ s <= en_w t /\
    Qabs (en_e t s - en_clamped t) <= en_tol t.
Proof.
  intros W Hc. pose proof W as [HV [Hm [H0 H1]]]. unfold en_shift. fold (en_clamped t).
  destruct (Qle_bool (en_storage t - en_cold t) 0) eqn:E; qbool; [lra|]. clear E.
  pose proof (en_w_pos t Hm Hc) as Hw. pose proof (en_tol_nonneg t W Hc) as Ht.
  pose proof (en_max_pos t W Hc) as HM.
  assert (Elo : en_e t (-100) == 0).
  { unfold en_e. rewrite en_G_lo by lra. ring. }
  assert (Ehi : en_e t (en_w t) == en_max t).
  { unfold en_e. rewrite en_G_hi by lra. rewrite (en_max_eq t Hm). reflexivity. }
  destruct (Qle_bool (en_clamped t) 0) eqn:E0; qbool.
  { eexists. split; [reflexivity|]. repeat split; try lra.
    assert (X : en_e t (-100) - en_clamped t == 0).
    { rewrite Elo. unfold en_clamped in *. qmm; lra. }
    rewrite X. exact Ht. }
  destruct (Qle_bool (en_max t) (en_clamped t)) eqn:E1; qbool.
  { rewrite qdiv_ok by lra. fold (en_w t). eexists. split; [reflexivity|]. repeat split; try lra.
    assert (X : en_e t (en_w t) - en_clamped t == 0).
    { rewrite Ehi. unfold en_clamped in *. qmm; lra. }
    rewrite X. exact Ht. }
  rewrite qdiv_ok by lra. cbn [bind]. fold (en_w t).
  destruct (en_search_ok t (en_clamped t) ((1 # 1000000) * qmax (en_clamped t) 1) W Hc 30 (-100) (en_w t))
    as [s [Es [S1 [S2 S3]]]]; try lra.
  { pose proof (qmax_r (en_clamped t) 1). lra. }
  exists s. split; [exact Es|]. repeat split; try lra.
  unfold en_tol. fold (en_w t). fold (en_L t).
  assert (HK : 0 <= en_L t * (en_storage t - en_cold t) * (100 + en_w t) / inject_Z (2 ^ 31)).
  { apply qdiv_nonneg; [|reflexivity]. pose proof (en_L_pos t HV).
    apply qmul_nonneg; [apply qmul_nonneg; lra|lra]. }
  assert (HE : (1 # 1000000) * qmax (en_clamped t) 1 <= (1 # 1000000) * qmax (en_energy t) 1).
  { unfold en_clamped. qmm; lra. }
  assert (HE0 : 0 <= (1 # 1000000) * qmax (en_energy t) 1).
  { pose proof (qmax_r (en_energy t) 1). lra. }
  destruct S3 as [S3|S3]; [lra|].
  assert (X : en_L t * (en_storage t - en_cold t) * ((en_w t - -100) / (2 * epow2 30))
     == en_L t * (en_storage t - en_cold t) * (100 + en_w t) / inject_Z (2 ^ 31)).
  { assert (Y : 2 * epow2 30 == inject_Z (2 ^ 31)) by reflexivity. rewrite Y. field. intro C; vm_compute in C; discriminate. }
  rewrite X in S3. lra.
Qed.

(** ** The reported profile *)
Definition en_prof (t : entank) (s f : Q) : Q :=
  if qltb (f * 100) (en_cold_pct t) then en_cold t
  else ramp (en_cold t) (en_storage t) (en_slope t) (- s) (f * 100).

Lemma en_temp_ok t s f : en_shift t = Ok s ->
  exists x, en_temp t f = Ok x /\ x == en_prof t s f.
Proof.
  intros Hs. unfold en_temp, en_prof. destruct (qltb (f * 100) (en_cold_pct t)).
  - eexists. split; [reflexivity|]. reflexivity.
  - rewrite Hs. cbn [bind]. eexists. split; [reflexivity|]. unfold ramp.
    assert (E : en_slope t * (f * 100 + s) + en_cold t == en_slope t * (f * 100 - - s) + en_cold t) by ring.
    rewrite E. reflexivity.
Qed.

Lemma en_profile_prof t s T : en_shift t = Ok s -> en_profile t T -> forall f, T f == en_prof t s f.
Proof.
  intros Hs HT f. destruct (en_temp_ok t s f Hs) as [x [E Ex]]. specialize (HT f). congruence || (rewrite HT in E; injection E as ->; exact Ex).
Qed.

Lemma en_profile_exists t : en_wf t -> en_cold t < en_storage t -> exists T, en_profile t T.
Proof.
  intros W Hc. destruct (en_shift_ok t W Hc) as [s [Hs _]].
  exists (fun f => match en_temp t f with Ok x => x | Err _ => 0 end). intro f.
  destruct (en_temp_ok t s f Hs) as [x [E _]]. rewrite E. reflexivity.
Qed.

Lemma en_prof_range t s f : en_cold t <= en_storage t ->
  en_cold t <= en_prof t s f /\ en_prof t s f <= en_storage t.
Proof.
  intros H. unfold en_prof. destruct (qltb _ _); [lra|]. apply ramp_range. exact H.
Qed.
Lemma en_prof_mono t s f g : 0 < en_slope t -> en_cold t <= en_storage t -> f <= g -> en_prof t s f <= en_prof t s g.
Proof.
  intros Hm Hc H. unfold en_prof.
  destruct (qltb (f * 100) _) eqn:A; destruct (qltb (g * 100) _) eqn:B; qbool.
  - lra.
  - apply ramp_range. exact Hc.
  - lra.
  - apply ramp_mono; lra.
Qed.

(** Antiderivative of the heat above cold in the reported profile, per height fraction. *)
Definition en_PF (t : entank) (s x : Q) : Q :=
  if qltb (x * 100) (en_cold_pct t) then 0
  else (ramp_F 0 (en_slope t) (- s) (en_w t) (x * 100) - ramp_F 0 (en_slope t) (- s) (en_w t) (en_cold_pct t)) * (1 # 100).

Lemma en_prof_squeezes t s a b T : en_wf t -> en_cold t < en_storage t ->
  (forall f, T f == en_prof t s f) ->
  squeezes (fun f => T f - en_cold t) (en_PF t s) a b.
Proof.
  intros [HV [Hm [H0 H1]]] Hc HT x y _ Hxy _. rewrite !HT.
  pose proof (en_w_pos t Hm Hc) as Hw. pose proof (en_w_eq t Hm) as Ew.
  pose proof (en_prof_range t s x ltac:(lra)) as Rx. pose proof (en_prof_range t s y ltac:(lra)) as Ry.
  assert (SQ : forall x y, x <= y ->
     (ramp (en_cold t) (en_storage t) (en_slope t) (- s) x - en_cold t) * (y - x)
       <= ramp_F 0 (en_slope t) (- s) (en_w t) y - ramp_F 0 (en_slope t) (- s) (en_w t) x /\
     ramp_F 0 (en_slope t) (- s) (en_w t) y - ramp_F 0 (en_slope t) (- s) (en_w t) x
       <= (ramp (en_cold t) (en_storage t) (en_slope t) (- s) y - en_cold t) * (y - x)).
  { intros u v Huv.
    destruct (ramp_squeezes (en_cold t) (en_storage t) (en_slope t) (- s) (en_w t) u v Hm ltac:(lra) ltac:(lra) u v) as [A B]; try lra.
    unfold ramp_F in *. split; lra. }
  assert (RR : forall x, 0 <= ramp (en_cold t) (en_storage t) (en_slope t) (- s) x - en_cold t).
  { intro u. pose proof (ramp_range (en_cold t) (en_storage t) (en_slope t) (- s) u ltac:(lra)). lra. }
  unfold en_PF. unfold en_prof in *.
  destruct (qltb (x * 100) _) eqn:A; destruct (qltb (y * 100) _) eqn:B; qbool.
  - split; lra.
  - destruct (SQ (en_cold_pct t) (y * 100) ltac:(lra)) as [S1 S2].
    pose proof (RR (en_cold_pct t)) as R1. pose proof (RR (y * 100)) as R2.
    set (Py := ramp_F _ _ _ _ (y * 100)) in *. set (Pc := ramp_F _ _ _ _ (en_cold_pct t)) in *.
    set (vy := ramp _ _ _ _ (y * 100)) in *. set (vc := ramp _ _ _ _ (en_cold_pct t)) in *.
    assert (0 <= (vc - en_cold t) * (y * 100 - en_cold_pct t)) by (apply qmul_nonneg; lra).
    assert ((vy - en_cold t) * (y * 100 - en_cold_pct t) <= (vy - en_cold t) * (y * 100 - x * 100)).
    { assert (0 <= (vy - en_cold t) * (en_cold_pct t - x * 100)) by (apply qmul_nonneg; lra). lra. }
    split; lra.
  - lra.
  - destruct (SQ (x * 100) (y * 100) ltac:(lra)) as [S1 S2]. split; lra.
Qed.

Lemma c27_energy t T :
  en_wf t -> en_cold t < en_storage t -> 0 <= en_energy t -> en_energy t <= en_full t -> en_profile t T ->
  exists I, is_integral (fun f => T f - en_cold t) 0 1 I /\
    Qabs (rho_cp * en_vol t * I - en_energy t) <= en_tol t.
Proof.
  intros W Hc H0 H1 HT. destruct (en_shift_ok t W Hc) as [s [Hs [S1 [S2 S3]]]].
  pose proof (en_profile_prof t s T Hs HT) as HP. rewrite <- en_max_full in H1.
  exists (en_PF t s 1 - en_PF t s 0). split.
  - apply integral_of_antiderivative. apply en_prof_squeezes; auto.
  - assert (EC : en_clamped t == en_energy t) by (unfold en_clamped; qmm; lra).
    rewrite EC in S3. eapply Qle_trans; [|exact S3]. apply Qle_lteq. right. apply Qabs_wd.
    destruct W as [HV [Hm [P0 P1]]].
    unfold en_e, en_L, en_PF, en_G.
    destruct (qltb (1 * 100) _) eqn:A; qbool; [lra|].
    assert (E1 : 1 * 100 == 100) by ring. rewrite E1.
    destruct (qltb (0 * 100) _) eqn:B; qbool.
    + field.
    + assert (E2 : en_cold_pct t == 0) by lra. assert (E3 : 0 * 100 == 0) by ring. rewrite E3, E2. field.
Qed.

Lemma c27_monotone t T :
  en_wf t -> en_cold t < en_storage t -> en_profile t T ->
  (forall f g, f <= g -> T f <= T g) /\ (forall f, en_cold t <= T f /\ T f <= en_storage t).
Proof.
  intros W Hc HT. destruct (en_shift_ok t W Hc) as [s [Hs _]].
  pose proof (en_profile_prof t s T Hs HT) as HP. split.
  - intros f g H. rewrite !HP. apply en_prof_mono; try lra. apply W.
  - intros f. rewrite HP. apply en_prof_range. lra.
Qed.

(** ** Average draw temperature *)
Lemma en_zone_avg_ok t s lo hi :
  en_wf t -> en_cold t < en_storage t -> en_shift t = Ok s -> 0 <= lo -> lo < hi -> hi <= 100 ->
  exists a, en_zone_avg t lo hi = Ok a /\
    a * (hi - lo) == ramp_F (en_cold t) (en_slope t) (- s) (en_w t) hi - ramp_F (en_cold t) (en_slope t) (- s) (en_w t) lo.
Proof.
  intros [HV [Hm [P0 P1]]] Hc Hs H0 H1 H2. unfold en_zone_avg.
  destruct (Qle_bool hi lo) eqn:E; qbool; [lra|]. clear E. rewrite Hs. cbn [bind].
  destruct (qltb 0 (en_storage t - en_cold t)) eqn:E; qbool; [|lra]. clear E.
  rewrite qdiv_ok by lra. cbn [bind]. fold (en_w t).
  pose proof (en_w_pos t Hm Hc) as Hw. pose proof (en_w_eq t Hm) as Ew.
  rewrite qdiv_ok by lra. eexists. split; [reflexivity|].
  rewrite qdiv_mul by lra.
  rewrite <- (zone_int_F (en_cold t) (en_storage t) (en_slope t) (- s) (en_w t) lo hi Hm) by lra.
  unfold zone_int, clampp.
  assert (E1 : en_w t - s == - s + en_w t) by ring.
  assert (Exh : qmax 0 (qmin 100 (en_w t - s)) == qmax 0 (qmin 100 (- s + en_w t))) by (rewrite E1; reflexivity).
  revert Exh. generalize (qmax 0 (qmin 100 (en_w t - s))) as xh. generalize (qmax 0 (qmin 100 (- s + en_w t))) as xh'.
  generalize (qmax 0 (qmin 100 (- s))) as xc. intros xc xh' xh Exh.
  assert (A1 : qmax lo 0 == lo) by (qmm; lra). 
  assert (A2 : qmin hi 100 == hi) by (qmm; lra). 
  rewrite A1, A2.
  assert (A3 : qmin hi xh == qmin hi xh') by (rewrite Exh; reflexivity).
  assert (A4 : qmax lo xh == qmax lo xh') by (rewrite Exh; reflexivity).
  rewrite A4.
  rewrite (qltb_compat _ _ (Qeq_refl (qmax lo xc)) _ _ A3).
  destruct (qltb (qmax lo xc) (qmin hi xh')).
  - rewrite A3. unfold Qdiv. change (/ 2) with (1 # 2). generalize (qmin hi xh') (qmax lo xc). intros. ring.
  - reflexivity.
Qed.

(** Antiderivative of the reported profile itself above the inlet zone. *)
Lemma en_prof_squeezes_abs t s a b T : en_wf t -> en_cold t < en_storage t ->
  (forall f, T f == en_prof t s f) -> en_cold_pct t <= a * 100 ->
  squeezes T (fun x => ramp_F (en_cold t) (en_slope t) (- s) (en_w t) (x * 100) * (1 # 100)) a b.
Proof.
  intros [HV [Hm [H0 H1]]] Hc HT Ha x y Hx Hxy Hy. rewrite !HT. unfold en_prof.
  pose proof (en_w_pos t Hm Hc) as Hw. pose proof (en_w_eq t Hm) as Ew.
  destruct (qltb (x * 100) _) eqn:A; qbool; [lra|].
  destruct (qltb (y * 100) _) eqn:B; qbool; [lra|].
  destruct (ramp_squeezes (en_cold t) (en_storage t) (en_slope t) (- s) (en_w t) (x * 100) (y * 100) Hm ltac:(lra) ltac:(lra) (x * 100) (y * 100)) as [C D]; try lra.
Qed.

Lemma c27_avg t T g :
  en_wf t -> en_cold t < en_storage t -> en_profile t T ->
  0 < g -> g <= (1 - en_cold_pct t / 100) * en_vol t ->
  exists a, en_avg t g = Ok a /\ is_mean T (1 - g / en_vol t) 1 a.
Proof.
  intros W Hc HT Hg Hgv. pose proof W as [HV [Hm [P0 P1]]].
  destruct (en_shift_ok t W Hc) as [s [Hs _]]. pose proof (en_profile_prof t s T Hs HT) as HP.
  assert (HgV : g <= en_vol t).
  { assert (0 <= en_cold_pct t / 100 * en_vol t) by (apply qmul_nonneg; [apply qdiv_nonneg|]; lra). lra. }
  assert (Hq : g / en_vol t <= 1 - en_cold_pct t / 100) by (apply qdiv_le_iff; lra).
  assert (Hq0 : 0 < g / en_vol t) by (apply qdiv_pos; lra).
  assert (Hcp : en_cold_pct t / 100 * 100 == en_cold_pct t) by field.
  unfold en_avg.
  assert (Eg : qmin g (en_vol t) = g).
  { unfold qmin. destruct (Qle_bool g (en_vol t)) eqn:E; qbool; [reflexivity|lra]. }
  rewrite Eg. destruct (Qle_bool g 0) eqn:E; qbool; [lra|].
  rewrite qdiv_ok by lra. cbn [bind]. set (q := g / en_vol t) in *.
  assert (Ex : qmax 0 (100 - q * 100) == (1 - q) * 100) by (qmm; lra).
  destruct (en_zone_avg_ok t s (qmax 0 (100 - q * 100)) 100 W Hc Hs) as [a [Ea Ha]]; try lra.
  exists a. split; [exact Ea|]. unfold is_mean.
  pose proof (integral_of_antiderivative T _ (1 - q) 1 (en_prof_squeezes_abs t s (1 - q) 1 T W Hc HP ltac:(lra))) as HI.
  cbv beta in HI.
  assert (X : a * (1 - (1 - q)) ==
     ramp_F (en_cold t) (en_slope t) (- s) (en_w t) (1 * 100) * (1 # 100) -
     ramp_F (en_cold t) (en_slope t) (- s) (en_w t) ((1 - q) * 100) * (1 # 100)).
  { rewrite Ex in Ha. assert (E1 : 1 * 100 == 100) by ring. rewrite E1. lra. }
  intros pts Hp. rewrite X. exact (HI pts Hp).
Qed.

(** ** Usable volume *)
Lemma en_level t s T sup :
  en_wf t -> en_cold t < en_storage t -> en_shift t = Ok s -> en_profile t T -> en_cold t < sup -> sup <= en_storage t ->
  exists u, en_usable t sup = Ok u /\ 
  is_level_length T 0 1 sup (qmin u ((1 - en_cold_pct t / 100) * en_vol t) / en_vol t).
Proof.
  intros W Hc Hs HT H1 H2. pose proof W as [HV [Hm [P0 P1]]].
  pose proof (en_profile_prof t s T Hs HT) as HP.
  unfold en_usable. rewrite Hs. cbn [bind]. rewrite qdiv_ok by lra. cbn [bind].
  eexists. split; [reflexivity|]. set (d := (sup - en_cold t) / en_slope t).
  assert (Ed : en_slope t * d == sup - en_cold t) by (unfold d; field; lra).
  set (z := qmax 0 (qmin 100 (d - s))).
  assert (Hz0 : 0 <= z) by (unfold z; qmm; lra). assert (Hz1 : z <= 100) by (unfold z; qmm; lra).
  exists (qmax z (en_cold_pct t) * (1 # 100)).
  assert (Hx : 0 <= qmax z (en_cold_pct t) /\ qmax z (en_cold_pct t) <= 100) by (qmm; lra).
  split; [lra|]. split; [|split].
  - assert (E1 : (100 - z) / 100 * en_vol t == (100 - z) * (1 # 100) * en_vol t) by field.
    assert (E2 : (1 - en_cold_pct t / 100) * en_vol t == (100 - en_cold_pct t) * (1 # 100) * en_vol t) by field.
    rewrite E1, E2.
    destruct (qmax_spec z (en_cold_pct t)) as [[A ->]|[A ->]].
    + assert ((100 - en_cold_pct t) * (1 # 100) * en_vol t <= (100 - z) * (1 # 100) * en_vol t) by nra.
      assert (E : qmin ((100 - z) * (1 # 100) * en_vol t) ((100 - en_cold_pct t) * (1 # 100) * en_vol t) == (100 - en_cold_pct t) * (1 # 100) * en_vol t) by (qmm; lra).
      rewrite E. field. lra.
    + assert ((100 - z) * (1 # 100) * en_vol t <= (100 - en_cold_pct t) * (1 # 100) * en_vol t) by nra.
      assert (E : qmin ((100 - z) * (1 # 100) * en_vol t) ((100 - en_cold_pct t) * (1 # 100) * en_vol t) == (100 - z) * (1 # 100) * en_vol t) by (qmm; lra).
      rewrite E. field. lra.
  - intros y Hy0 Hy. rewrite HP. unfold en_prof. destruct (qltb (y * 100) _) eqn:A; qbool; [lra|].
    assert (Hyz : y * 100 < z) by (destruct (qmax_spec z (en_cold_pct t)) as [[B E]|[B E]]; rewrite E in Hy; lra).
    assert (Hyd : y * 100 < d - s) by (unfold z in Hyz; qmm; lra).
    assert (en_slope t * (y * 100 - - s) < en_slope t * d) by (apply Qmult_lt_l; lra).
    unfold ramp. qmm; lra.
  - intros y Hy Hy1. rewrite HP. unfold en_prof.
    pose proof (qmax_l z (en_cold_pct t)). pose proof (qmax_r z (en_cold_pct t)).
    destruct (qltb (y * 100) _) eqn:A; qbool; [lra|].
    assert (Hyd : d - s <= y * 100) by (unfold z in *; qmm; lra).
    assert (en_slope t * d <= en_slope t * (y * 100 - - s)) by (apply Qmult_le_l with (z := en_slope t); lra).
    unfold ramp. qmm; lra.
Qed.

Lemma c27_usable t T sup :
  en_wf t -> en_cold_pct t == 0 -> en_profile t T -> en_cold t < sup -> sup <= en_storage t ->
  exists u m, en_usable t sup = Ok u /\ is_level_length T 0 1 sup m /\ u == m * en_vol t.
Proof.
  intros W H0 HT H1 H2. assert (Hc : en_cold t < en_storage t) by lra.
  destruct (en_shift_ok t W Hc) as [s [Hs _]].
  destruct (en_level t s T sup W Hc Hs HT H1 H2) as [u [Eu L]].
  exists u. eexists. split; [exact Eu|]. split; [exact L|].
  destruct W as [HV [Hm _]].
  assert (Hu : u <= en_vol t).
  { unfold en_usable in Eu. rewrite Hs in Eu. cbn [bind] in Eu. rewrite qdiv_ok in Eu by lra. cbn [bind] in Eu.
    injection Eu as <-. set (z := qmax 0 _). assert (0 <= z) by (unfold z; apply qmax_l).
    assert ((100 - z) / 100 <= 1) by (apply qdiv_le_iff; lra). nra. }
  assert (E : (1 - en_cold_pct t / 100) * en_vol t == en_vol t) by (rewrite H0; field).
  rewrite E. assert (E2 : qmin u (en_vol t) == u) by (qmm; lra). rewrite E2. field. lra.
Qed.

(** ** Energy bounds over histories *)
Lemma en_energy_at_any t s : en_wf t -> en_cold t <= en_storage t ->
  exists e, en_energy_at t s = Ok e /\ 0 <= e /\ e <= en_max t.
Proof.
  intros W Hc. destruct (Qlt_le_dec (en_cold t) (en_storage t)) as [C|C].
  - destruct (en_energy_at_ok t s W C) as [e [E He]]. exists e. split; [exact E|]. rewrite He. apply en_e_range; auto.
  - exists 0. unfold en_energy_at. destruct (Qle_bool _ 0) eqn:E; qbool; [|lra]. split; [reflexivity|].
    assert (X : en_storage t - en_cold t == 0) by lra. unfold en_max. rewrite X. split; lra.
Qed.

Lemma en_max_nonneg t : en_wf t -> en_cold t <= en_storage t -> 0 <= en_max t.
Proof. intros W Hc. destruct (en_energy_at_any t 0 W Hc) as [e [_ H]]. lra. Qed.

Lemma en_zone_avg_total t lo hi : en_wf t -> en_cold t <= en_storage t -> exists a, en_zone_avg t lo hi = Ok a.
Proof.
  intros W Hc. unfold en_zone_avg. destruct (Qle_bool hi lo) eqn:E; qbool; [eauto|].
  destruct (Qlt_le_dec (en_cold t) (en_storage t)) as [C|C].
  - destruct (en_shift_ok t W C) as [s [Hs _]]. rewrite Hs. cbn [bind].
    destruct (qltb 0 (en_storage t - en_cold t)).
    + destruct W as [_ [Hm _]]. rewrite qdiv_ok by lra. cbn [bind]. rewrite qdiv_ok by lra. eauto.
    + cbn [bind]. rewrite qdiv_ok by lra. eauto.
  - unfold en_shift. destruct (Qle_bool _ 0) eqn:E2; qbool; [|lra]. cbn [bind].
    destruct (qltb 0 (en_storage t - en_cold t)) eqn:E3; qbool; [lra|]. cbn [bind]. rewrite qdiv_ok by lra. eauto.
Qed.

Lemma en_avg_total t g : en_wf t -> en_cold t <= en_storage t -> exists a, en_avg t g = Ok a.
Proof.
  intros W Hc. unfold en_avg. destruct (Qle_bool _ 0); [eauto|].
  rewrite qdiv_ok by (destruct W; lra). cbn [bind]. apply en_zone_avg_total; auto.
Qed.

(** Same geometry and storage temperature. *)
Definition en_same (h : Q) (t0 t : entank) : Prop :=
  en_vol t = en_vol t0 /\ en_slope t = en_slope t0 /\ en_cold_pct t = en_cold_pct t0 /\ en_storage t == h.
Lemma en_same_wf h t0 t : en_same h t0 t -> en_wf t0 -> en_wf t.
Proof. intros [A [B [C _]]] W. unfold en_wf in *. rewrite A, B, C. exact W. Qed.

Definition en_inv (c h : Q) (t0 t : entank) : Prop :=
  en_same h t0 t /\ en_cold t == c /\ 0 <= en_energy t /\ en_energy t <= en_max t.

Lemma en_set_energy_same h t0 t e : en_same h t0 t -> en_same h t0 (en_set_energy t e).
Proof. intros H. exact H. Qed.

Lemma en_max_cong t t' : en_vol t = en_vol t' -> en_cold_pct t = en_cold_pct t' ->
  en_storage t == en_storage t' -> en_cold t == en_cold t' -> en_max t == en_max t'.
Proof. intros A B C D. unfold en_max. rewrite A, B, C, D. reflexivity. Qed.

Lemma en_step_inv c h t0 t o : en_wf t0 -> c <= h -> en_inv c h t0 t -> const_inlet c h o ->
  exists t', en_step t o = Ok t' /\ en_inv c h t0 t'.
Proof.
  intros W0 Hch [S [Ec [E0 E1]]] Ho. pose proof (en_same_wf _ _ _ S W0) as W. pose proof S as [S1 [S2 [S3 S4]]].
  assert (Hcs : en_cold t <= en_storage t) by lra.
  pose proof (en_max_nonneg t W Hcs) as HM.
  destruct o as [st c' pu|v c' su out|b|k d out|f r d su|g c' u]; cbn [en_step const_inlet] in *.
  - destruct Ho as [Hs Hc]. unfold en_initialize.
    set (t1 := mkEn (en_vol t) c' st (en_slope t) (en_energy t) (en_cold_pct t)).
    assert (W1 : en_wf t1) by exact W.
    destruct (en_energy_at_any t1 ((pu - 1) * 100) W1) as [e [Ee He]]; [cbn; lra|].
    rewrite Ee. cbn [bind]. eexists. split; [reflexivity|].
    split; [|split; [|exact He]]; [|cbn; lra]. repeat split; cbn; auto.
  - eexists. split; [reflexivity|]. unfold en_draw.
    assert (S' : en_inv c h t0 (en_set_cold t c')).
    { split; [exact S|]. split; [cbn; lra|]. split; [cbn; lra|].
      cbn [en_energy en_set_cold]. rewrite (en_max_cong (en_set_cold t c') t); auto; [reflexivity|cbn; lra]. }
    destruct (Qle_bool v 0 || Qle_bool su c')%bool eqn:X; [exact S'|]. qbool.
    destruct S' as [A [B [C D]]]. split; [exact A|]. split; [exact B|].
    change (en_max (en_set_energy (en_set_cold t c') _)) with (en_max (en_set_cold t c')).
    cbn [en_energy en_set_energy en_set_cold en_vol] in *.
    assert (0 <= v * rho_cp * (su - c')).
    { apply qmul_nonneg; [apply qmul_nonneg; [lra|apply Qlt_le_weak, en_rho_pos]|lra]. }
    split; [apply qmax_l|]. apply qmax_lub; lra.
  - eexists. split; [reflexivity|]. unfold en_add_energy. destruct (qltb 0 b) eqn:X; qbool.
    + split; [exact S|]. split; [exact Ec|]. cbn [en_energy en_set_energy].
      change (en_max (en_set_energy t _)) with (en_max t). split; [apply qmin_glb; lra|apply qmin_r].
    + split; [exact S|]. auto.
  - eexists. split; [reflexivity|]. unfold en_heat. destruct (_ || _)%bool.
    + split; [exact S|]. auto.
    + split; [exact S|]. split; [exact Ec|]. cbn [en_energy en_set_energy].
      change (en_max (en_set_energy t _)) with (en_max t). split; [|apply qmin_r].
      assert (0 <= k * 1000 * d / 60) by (apply qdiv_nonneg; lra). apply qmin_glb; lra.
  - eexists. split; [reflexivity|]. unfold en_recirc. split; [exact S|]. split; [exact Ec|].
    cbn [en_energy en_set_energy]. change (en_max (en_set_energy t _)) with (en_max t).
    destruct Ho as [Hf Hr].
    assert (0 <= f * d * rho_cp * (match su with Some x => x | None => en_storage t end - r)).
    { apply qmul_nonneg; [apply qmul_nonneg; [lra|apply Qlt_le_weak, en_rho_pos]|]. destruct su; lra. }
    split; [apply qmax_l|]. apply qmax_lub; lra.
  - unfold en_draw_physical.
    set (t1 := if u then en_set_cold t c' else t).
    assert (S' : en_inv c h t0 t1).
    { unfold t1. destruct u; [|split; [exact S|auto]]. specialize (Ho eq_refl).
      split; [exact S|]. split; [cbn; lra|]. split; [cbn; lra|].
      cbn [en_energy en_set_cold]. rewrite (en_max_cong (en_set_cold t c') t); auto; [reflexivity|cbn; lra]. }
    destruct (Qle_bool g 0) eqn:X; qbool; [eauto|].
    destruct S' as [A [B [C D]]]. pose proof A as [_ [_ [_ A4]]].
    destruct (en_avg_total t1 g (en_same_wf _ _ _ A W0) ltac:(lra)) as [a Ea]. rewrite Ea. cbn [bind].
    eexists. split; [reflexivity|]. split; [exact A|]. split; [exact B|].
    change (en_max (en_set_energy t1 _)) with (en_max t1). cbn [en_energy en_set_energy].
    assert (0 <= g * rho_cp * qmax 0 (a - c')).
    { apply qmul_nonneg; [apply qmul_nonneg; [lra|apply Qlt_le_weak, en_rho_pos]|apply qmax_l]. }
    split; [apply qmax_l|]. apply qmax_lub; lra.
Qed.

Lemma c28_const c h os : forall t,
  en_wf t -> c <= h -> en_storage t == h -> en_cold t == c -> 0 <= en_energy t -> en_energy t <= en_full t ->
  Forall (const_inlet c h) os ->
  exists t', en_run t os = Ok t' /\ 0 <= en_energy t' /\ en_energy t' <= en_full t'.
Proof.
  intros t W Hch Hs Hc H0 H1 HF. rewrite <- en_max_full in H1.
  assert (I : en_inv c h t t) by (repeat split; auto).
  assert (R : forall os t1, en_inv c h t t1 -> Forall (const_inlet c h) os ->
     exists t', en_run t1 os = Ok t' /\ en_inv c h t t').
  { clear HF os. induction os as [|o os IH]; intros t1 I1 HF.
    - exists t1. split; [reflexivity|exact I1].
    - inversion HF as [|? ? Ho Hos]; subst. cbn [en_run].
      destruct (en_step_inv c h t t1 o W Hch I1 Ho) as [t2 [E2 I2]]. rewrite E2. cbn [bind]. apply IH; auto. }
  destruct (R os t I HF) as [t' [E [_ [_ [A B]]]]]. exists t'. split; [exact E|]. rewrite <- en_max_full. auto.
Qed.

(** Never negative, for varying inlet temperatures. *)
Definition en_inv0 (h : Q) (t0 t : entank) : Prop :=
  en_same h t0 t /\ en_cold t <= h /\ 0 <= en_energy t.

Lemma en_step_inv0 h t0 t o : en_wf t0 -> en_inv0 h t0 t -> inlet_below h o ->
  exists t', en_step t o = Ok t' /\ en_inv0 h t0 t'.
Proof.
  intros W0 [S [Ec E0]] Ho. pose proof (en_same_wf _ _ _ S W0) as W. pose proof S as [S1 [S2 [S3 S4]]].
  assert (Hcs : en_cold t <= en_storage t) by lra.
  pose proof (en_max_nonneg t W Hcs) as HM.
  destruct o as [st c' pu|v c' su out|b|k d out|f r d su|g c' u]; cbn [en_step inlet_below] in *.
  - destruct Ho as [Hs Hc]. unfold en_initialize.
    set (t1 := mkEn (en_vol t) c' st (en_slope t) (en_energy t) (en_cold_pct t)).
    assert (W1 : en_wf t1) by exact W.
    destruct (en_energy_at_any t1 ((pu - 1) * 100) W1) as [e [Ee He]]; [cbn; lra|].
    rewrite Ee. cbn [bind]. eexists. split; [reflexivity|].
    split; [|split; [cbn; lra|apply He]]. repeat split; cbn; auto.
  - eexists. split; [reflexivity|]. unfold en_draw.
    destruct (_ || _)%bool; (split; [exact S|]; split; [exact Ho|]); cbn [en_energy en_set_cold en_set_energy]; [exact E0|apply qmax_l].
  - eexists. split; [reflexivity|]. unfold en_add_energy. destruct (qltb 0 b) eqn:X; qbool;
    (split; [exact S|]; split; [exact Ec|]); cbn [en_energy en_set_energy]; [apply qmin_glb; lra|exact E0].
  - eexists. split; [reflexivity|]. unfold en_heat.
    assert (0 <= k * 1000 * d / 60) by (apply qdiv_nonneg; lra).
    destruct (_ || _)%bool; (split; [exact S|]; split; [exact Ec|]); cbn [en_energy en_set_energy]; [exact E0|].
    apply qmin_glb; lra.
  - eexists. split; [reflexivity|]. unfold en_recirc. split; [exact S|]. split; [exact Ec|]. apply qmax_l.
  - unfold en_draw_physical.
    set (t1 := if u then en_set_cold t c' else t).
    assert (S' : en_inv0 h t0 t1).
    { unfold t1. destruct u; [|split; [exact S|auto]]. specialize (Ho eq_refl).
      split; [exact S|]. split; [cbn; lra|]. exact E0. }
    destruct (Qle_bool g 0) eqn:X; qbool; [eauto|].
    destruct S' as [A [B C]]. pose proof A as [_ [_ [_ A4]]].
    destruct (en_avg_total t1 g (en_same_wf _ _ _ A W0) ltac:(lra)) as [a Ea]. rewrite Ea. cbn [bind].
    eexists. split; [reflexivity|]. split; [exact A|]. split; [exact B|]. apply qmax_l.
Qed.

Lemma c28_nonneg h os : forall t,
  en_wf t -> en_storage t == h -> en_cold t <= h -> 0 <= en_energy t ->
  Forall (inlet_below h) os ->
  exists t', en_run t os = Ok t' /\ 0 <= en_energy t'.
Proof.
  intros t W Hs Hc H0 HF.
  assert (I : en_inv0 h t t) by (repeat split; auto).
  assert (R : forall os t1, en_inv0 h t t1 -> Forall (inlet_below h) os ->
     exists t', en_run t1 os = Ok t' /\ en_inv0 h t t').
  { clear HF os. induction os as [|o os IH]; intros t1 I1 HF.
    - exists t1. split; [reflexivity|exact I1].
    - inversion HF as [|? ? Ho Hos]; subst. cbn [en_run].
      destruct (en_step_inv0 h t t1 o W I1 Ho) as [t2 [E2 I2]]. rewrite E2. cbn [bind]. apply IH; auto. }
  destruct (R os t I HF) as [t' [E [_ [_ A]]]]. exists t'. auto.
Qed.

Lemma qmin_to_l a b : a <= b -> qmin a b == a.
Proof. intro H. destruct (qmin_spec a b) as [[A E]|[A E]]; rewrite E; lra. Qed.
Lemma qmin_to_r a b : b <= a -> qmin a b == b.
Proof. intro H. destruct (qmin_spec a b) as [[A E]|[A E]]; rewrite E; lra. Qed.
Lemma qmax_to_l a b : b <= a -> qmax a b == a.
Proof. intro H. destruct (qmax_spec a b) as [[A E]|[A E]]; rewrite E; lra. Qed.
Lemma qmax_to_r a b : a <= b -> qmax a b == b.
Proof. intro H. destruct (qmax_spec a b) as [[A E]|[A E]]; rewrite E; lra. Qed.

(** A new tank is empty; heated enough it is full. *)
Lemma en_new_fills vol cold storage slope k d outlet f :
  0 < vol -> 0 < slope -> cold < storage -> 0 < k -> cold < outlet -> 0 <= f -> f <= 1 ->
  vol * rho_cp * (storage - cold) <= k * 1000 * d / 60 ->
  let t := en_new vol cold storage slope in
  en_energy t == 0 /\ (exists x, en_temp t f = Ok x /\ x == cold) /\
  en_energy (en_heat t k d outlet) == vol * rho_cp * (storage - cold) /\
  (exists x, en_temp (en_heat t k d outlet) f = Ok x /\ x == storage).
Proof.
  intros V S0 C K O F0 F1 L t.
  assert (M : en_max t == vol * rho_cp * (storage - cold)).
  { unfold en_max, t, en_new. cbn [en_cold_pct en_vol en_storage en_cold]. field. }
  assert (MP : 0 < en_max t).
  { rewrite M. apply Qmult_lt_0_compat; [apply Qmult_lt_0_compat; [exact V|reflexivity]|lra]. }
  assert (HT : en_heat t k d outlet = en_set_energy t (qmin (en_energy t + k * 1000 * d / 60) (en_max t))).
  { unfold en_heat. unfold t at 1. cbn [en_new en_cold]. destruct (Qle_bool k 0) eqn:E; [qbool; lra|].
    destruct (Qle_bool outlet cold) eqn:E1; [qbool; lra|]. reflexivity. }
  assert (EN : qmin (en_energy t + k * 1000 * d / 60) (en_max t) == en_max t).
  { apply qmin_to_r. rewrite M. unfold t. cbn [en_new en_energy]. lra. }
  split; [reflexivity|]. split; [|split].
  - unfold en_temp. unfold t at 1. cbn [en_new en_cold_pct]. destruct (qltb (f * 100) 0) eqn:E; [qbool; lra|].
    unfold en_shift. unfold t at 1 2. cbn [en_new en_storage en_cold]. destruct (Qle_bool (storage - cold) 0) eqn:E1; [qbool; lra|]. cbv zeta.
    assert (Z : qmax 0 (qmin (en_energy t) (en_max t)) == 0).
    { assert (Y : en_energy t = 0) by reflexivity. rewrite Y.
      destruct (qmin_spec 0 (en_max t)) as [[A E2]|[A E2]]; rewrite E2; apply qmax_to_l; lra. }
    destruct (Qle_bool (qmax 0 (qmin (en_energy t) (en_max t))) 0) eqn:E2; [|qbool; lra]. cbn [bind].
    eexists. split; [reflexivity|]. unfold t. cbn [en_new en_cold en_storage en_slope]. apply qmax_to_l.
    apply Qle_trans with (slope * (f * 100 + -100) + cold); [apply qmin_r|]. nra.
  - rewrite HT. cbn [en_set_energy en_energy]. rewrite EN. exact M.
  - rewrite HT. set (E0 := qmin (en_energy t + k * 1000 * d / 60) (en_max t)) in *.
    assert (M2 : en_max (en_set_energy t E0) = en_max t) by reflexivity.
    unfold en_temp. unfold t at 1. cbn [en_set_energy en_new en_cold_pct]. destruct (qltb (f * 100) 0) eqn:E; [qbool; lra|].
    unfold en_shift. rewrite !M2. unfold t at 1 2. cbn [en_set_energy en_new en_storage en_cold].
    destruct (Qle_bool (storage - cold) 0) eqn:E1; [qbool; lra|]. cbv zeta.
    change (en_energy (en_set_energy t E0)) with E0.
    assert (Z : qmax 0 (qmin E0 (en_max t)) == en_max t).
    { destruct (qmin_spec E0 (en_max t)) as [[A E2]|[A E2]]; rewrite E2; rewrite qmax_to_r; lra. }
    destruct (Qle_bool (qmax 0 (qmin E0 (en_max t))) 0) eqn:E2; [qbool; lra|].
    destruct (Qle_bool (en_max t) (qmax 0 (qmin E0 (en_max t)))) eqn:E3; [|qbool; lra].
    change (en_slope (en_set_energy t E0)) with slope. rewrite qdiv_ok by lra. cbn [bind].
    eexists. split; [reflexivity|]. unfold t. cbn [en_set_energy en_new en_cold en_storage en_slope].
    assert (D : slope * ((storage - cold) / slope) == storage - cold) by (field; lra).
    assert (A : storage <= slope * (f * 100 + (storage - cold) / slope) + cold).
    { rewrite Qmult_plus_distr_r, D. nra. }
    destruct (qmin_spec storage (slope * (f * 100 + (storage - cold) / slope) + cold)) as [[B E4]|[B E4]]; rewrite E4;
      rewrite qmax_to_r by lra; lra.
Qed.
