(** Lemmas on sizing in binary64: the heating capacity is correct to a few units in the last place. *)
From Coq Require Import ZArith List SpecFloat Lia.
From Verif Require Import Prelude M_Float L_Float M_Float2 S_Float2 L_Float2 M_Float3 L_Float3 L_Float4.
From Coq Require Import Qabs Lqa.
Open Scope Q_scope.

(** [x] is a finite number within [k] units of roundoff of the positive [q]. *)
Definition rel (k : Q) (x : spec_float) (q : Q) : Prop := f64_finite x /\ 0 < q /\ Qabs (f64_val x - q) <= k * (f64_u * q).

Lemma u_lit : f64_u = (1 # 9007199254740992).
Proof. reflexivity. Qed.

Lemma abs_mul_le a b x y : Qabs a <= x -> Qabs b <= y -> Qabs (a * b) <= x * y.
Proof.
  intros A B. rewrite Qabs_Qmult. apply Qle_trans with (x * Qabs b).
  - apply Qmult_le_compat_r; [exact A|apply Qabs_nonneg].
  - rewrite !(Qmult_comm x). apply Qmult_le_compat_r; [exact B|]. pose proof (Qabs_nonneg a). lra.
Qed.

Lemma round_rel k z v q : f64_finite z -> 0 < q -> f64_eta <= (1 # 4) * (f64_u * q) -> 0 <= k <= 100 ->
  Qabs (v - q) <= (k + (1 # 10)) * (f64_u * q) -> Qabs (f64_val z - v) <= f64_u * Qabs v + f64_eta ->
  rel (k + 2) z q.
Proof.
  intros Fz Q0 Et K V Z. split; [exact Fz|]. split; [exact Q0|]. rewrite u_lit in *.
  assert (V2 : Qabs v <= (11 # 10) * q).
  { assert ((k + (1 # 10)) * ((1 # 9007199254740992) * q) <= 101 * ((1 # 9007199254740992) * q)) by (apply Qmult_le_compat_r; lra).
    apply abs_le in V. apply abs_le. lra. }
  assert (Z2 : Qabs (f64_val z - v) <= (11 # 10) * ((1 # 9007199254740992) * q) + (1 # 4) * ((1 # 9007199254740992) * q)).
  { eapply Qle_trans; [exact Z|]. assert ((1 # 9007199254740992) * Qabs v <= (1 # 9007199254740992) * ((11 # 10) * q)) by (apply Qmult_le_l; [reflexivity|exact V2]). lra. }
  setoid_replace ((k + (1 # 10)) * ((1 # 9007199254740992) * q)) with (k * ((1 # 9007199254740992) * q) + (1 # 10) * ((1 # 9007199254740992) * q)) in V by ring.
  setoid_replace ((k + 2) * ((1 # 9007199254740992) * q)) with (k * ((1 # 9007199254740992) * q) + 2 * ((1 # 9007199254740992) * q)) by ring.
  apply abs_le in V, Z2. apply abs_le. lra.
Qed.

Lemma abs_bound v q m k : Qabs (v - q) <= (k + (1 # 10)) * (f64_u * q) -> 0 < q -> 0 <= k <= 100 -> 2 * q <= m -> Qabs v <= m.
Proof.
  intros V Q0 K M. rewrite u_lit in *.
  assert ((k + (1 # 10)) * ((1 # 9007199254740992) * q) <= 101 * ((1 # 9007199254740992) * q)) by (apply Qmult_le_compat_r; lra).
  apply abs_le in V. apply abs_le. lra.
Qed.

Lemma mul_rel a b x y p q : rel a x p -> rel b y q -> 0 <= a <= 50 -> 0 <= b <= 50 ->
  f64_eta <= (1 # 4) * (f64_u * (p * q)) -> 2 * (p * q) <= f64_big -> rel (a + b + 2) (f64_mul x y) (p * q).
Proof.
  intros (Fx & P0 & Cx) (Fy & Q0 & Cy) A B Et Bg.
  assert (PQ : 0 < p * q) by (apply Qmult_lt_0_compat; assumption).
  assert (V : Qabs (f64_val x * f64_val y - p * q) <= ((a + b) + (1 # 10)) * (f64_u * (p * q))).
  { set (al := f64_val x - p) in *. set (be := f64_val y - q) in *.
    setoid_replace (f64_val x * f64_val y - p * q) with (al * q + (p * be + al * be)) by (unfold al, be; ring).
    assert (A1 : Qabs (al * q) <= a * (f64_u * p) * q) by (apply abs_mul_le; [exact Cx|apply abs_le; lra]).
    assert (A2 : Qabs (p * be) <= p * (b * (f64_u * q))) by (apply abs_mul_le; [apply abs_le; lra|exact Cy]).
    assert (A3 : Qabs (al * be) <= a * (f64_u * p) * (b * (f64_u * q))) by (apply abs_mul_le; assumption).
    assert (A4 : a * (f64_u * p) * (b * (f64_u * q)) <= (1 # 10) * (f64_u * (p * q))).
    { setoid_replace (a * (f64_u * p) * (b * (f64_u * q))) with (a * b * f64_u * (f64_u * (p * q))) by ring.
      apply Qmult_le_compat_r; [|rewrite u_lit; lra].
      assert (a * b <= 50 * 50) by nra. rewrite u_lit. lra. }
    eapply Qle_trans; [apply Qabs_triangle|]. pose proof (Qabs_triangle (p * be) (al * be)) as T.
    setoid_replace ((a + b + (1 # 10)) * (f64_u * (p * q))) with (a * (f64_u * p) * q + (p * (b * (f64_u * q)) + (1 # 10) * (f64_u * (p * q)))) by ring.
    lra. }
  destruct (mul_err x y Fx Fy) as (Fz & Z); [apply (abs_bound _ (p * q) _ (a + b)); try assumption; lra|].
  apply (round_rel (a + b) _ (f64_val x * f64_val y)); try assumption. lra.
Qed.

Lemma div_rel a b x y p q : rel a x p -> rel b y q -> 0 <= a <= 50 -> 0 <= b <= 50 ->
  f64_eta <= (1 # 4) * (f64_u * (p / q)) -> 2 * (p / q) <= f64_big ->
  exists z, f64_div x y = Ok z /\ rel (a + b + 2) z (p / q).
Proof.
  intros (Fx & P0 & Cx) (Fy & Q0 & Cy) A B Et Bg.
  assert (PQ : 0 < p / q) by (apply Qlt_shift_div_l; lra).
  assert (Yp : (9999 # 10000) * q <= f64_val y).
  { assert (b * (f64_u * q) <= 50 * (f64_u * q)) by (apply Qmult_le_compat_r; [lra|rewrite u_lit; lra]).
    apply abs_le in Cy. rewrite u_lit in *. lra. }
  assert (Y0 : 0 < f64_val y) by lra.
  assert (V : Qabs (f64_val x / f64_val y - p / q) <= ((a + b) + (1 # 10)) * (f64_u * (p / q))).
  { set (al := f64_val x - p) in *. set (be := f64_val y - q) in *.
    setoid_replace (f64_val x / f64_val y - p / q) with ((al * q + - (p * be)) / (f64_val y * q)) by (unfold al, be; field; split; lra).
    assert (A1 : Qabs (al * q) <= a * (f64_u * p) * q) by (apply abs_mul_le; [exact Cx|apply abs_le; lra]).
    assert (A2 : Qabs (p * be) <= p * (b * (f64_u * q))) by (apply abs_mul_le; [apply abs_le; lra|exact Cy]).
    assert (A3 : Qabs (al * q + - (p * be)) <= (a + b) * (f64_u * (p * q))).
    { eapply Qle_trans; [apply Qabs_triangle|]. rewrite Qabs_opp.
      setoid_replace ((a + b) * (f64_u * (p * q))) with (a * (f64_u * p) * q + p * (b * (f64_u * q))) by ring. lra. }
    assert (YQ : 0 < f64_val y * q) by (apply Qmult_lt_0_compat; lra).
    unfold Qdiv at 1. rewrite Qabs_Qmult. rewrite (Qabs_pos (/ _)) by (apply Qlt_le_weak, Qinv_lt_0_compat; exact YQ).
    fold (Qabs (al * q + - (p * be)) / (f64_val y * q)).
    apply Qle_shift_div_r; [exact YQ|].
    apply Qle_trans with ((a + b) * (f64_u * (p * q))); [exact A3|].
    setoid_replace ((a + b + (1 # 10)) * (f64_u * (p / q)) * (f64_val y * q)) with ((a + b + (1 # 10)) * f64_val y * (f64_u * p)) by (field; lra).
    setoid_replace ((a + b) * (f64_u * (p * q))) with ((a + b) * q * (f64_u * p)) by ring.
    apply Qmult_le_compat_r; [|rewrite u_lit; lra].
    apply Qle_trans with ((a + b + (1 # 10)) * ((9999 # 10000) * q)); [nra|].
    rewrite !(Qmult_comm (a + b + (1 # 10))). apply Qmult_le_compat_r; lra. }
  destruct (div_err x y Fx Fy ltac:(lra)) as (z & Ez & Fz & Z); [apply (abs_bound _ (p / q) _ (a + b)); try assumption; lra|].
  exists z. split; [exact Ez|]. apply (round_rel (a + b) _ (f64_val x / f64_val y)); try assumption. lra.
Qed.

Lemma rel_exact x : f64_positive x -> rel 0 x (f64_val x).
Proof. intros (F & P). split; [exact F|]. split; [exact P|]. apply abs_le. lra. Qed.

Lemma rho_rel : rel 1 f64_rho_cp (8353535 # 1000000).
Proof. split; [split; [vm_compute; reflexivity|exact I]|]. split; [reflexivity|]. vm_compute. discriminate. Qed.

Lemma thousand_rel : rel 0 (f64_of_int 1000) 1000.
Proof. split; [split; [vm_compute; reflexivity|vm_compute; exact I]|]. split; [reflexivity|]. vm_compute. discriminate. Qed.

Lemma eta_small q : 1 # 1000000000000000000000000000000 <= q -> f64_eta <= (1 # 4) * (f64_u * q).
Proof.
  intros H. apply Qle_trans with ((1 # 4) * (f64_u * (1 # 1000000000000000000000000000000))); [vm_compute; discriminate|].
  rewrite u_lit. lra.
Qed.
Lemma big_large q : q <= 1000000000000000000000000000000 -> 2 * q <= f64_big.
Proof.
  intros H. apply Qle_trans with (2 * 1000000000000000000000000000000); [lra|vm_compute; discriminate].
Qed.

Lemma mul_range a b c d x y : a <= x <= b -> c <= y <= d -> 0 < a -> 0 < c -> a * c <= x * y <= b * d.
Proof. intros. split; nra. Qed.
Lemma div_range a b c d x y : a <= x <= b -> c <= y <= d -> 0 < a -> 0 < c -> a / d <= x / y <= b / c.
Proof.
  intros Hx Hy Ha Hc. split.
  - apply Qle_shift_div_r; [lra|]. setoid_replace (x / y * d) with (x * d / y) by (field; lra).
    apply Qle_shift_div_l; [lra|]. nra.
  - apply Qle_shift_div_r; [lra|]. setoid_replace (b / c * y) with (b * y / c) by (field; lra).
    apply Qle_shift_div_l; [lra|]. nra.
Qed.

Lemma capacity_f64 daily run supply inlet defrost :
  f64_finite daily -> f64_finite run -> f64_finite supply -> f64_finite inlet -> f64_finite defrost ->
  let ok v := 1 # 1000 <= v <= 1000000000 in
  ok (f64_val daily) -> ok (f64_val run) -> ok (f64_val supply - f64_val inlet) -> ok (f64_val defrost) ->
  exists c, f64_capacity daily run supply inlet defrost = Ok c /\
    rel 12 c (f64_val daily / f64_val run * (8353535 # 1000000) * (f64_val supply - f64_val inlet) / f64_val defrost / 1000).
Proof.
  intros Fd Fr Fs Fi Fo ok Hd Hr Hdt Ho. unfold ok in *. clear ok.
  unfold f64_capacity.
  assert (Rd : rel 0 daily (f64_val daily)) by (apply rel_exact; split; [exact Fd|lra]).
  assert (Rr : rel 0 run (f64_val run)) by (apply rel_exact; split; [exact Fr|lra]).
  assert (Ro : rel 0 defrost (f64_val defrost)) by (apply rel_exact; split; [exact Fo|lra]).
  assert (Rs : rel 1 (f64_sub supply inlet) (f64_val supply - f64_val inlet)).
  { assert (Qabs (f64_val supply - f64_val inlet) <= 1000000000) by (apply abs_le; lra).
    destruct (sub_err supply inlet Fs Fi) as (F & E).
    - eapply Qle_trans; [exact H|]. vm_compute. discriminate.
    - split; [exact F|]. split; [lra|]. rewrite (Qabs_pos (f64_val supply - f64_val inlet)) in E by lra. lra. }
  set (D := f64_val daily) in *. set (R := f64_val run) in *. set (T := f64_val supply - f64_val inlet) in *. set (O := f64_val defrost) in *.
  pose proof (div_range _ _ _ _ D R Hd Hr eq_refl eq_refl) as G1.
  destruct (div_rel 0 0 daily run D R Rd Rr ltac:(lra) ltac:(lra)) as (gen & Eg & Rg).
  { apply eta_small. eapply Qle_trans; [|apply G1]. vm_compute. discriminate. }
  { apply big_large. eapply Qle_trans; [apply G1|]. vm_compute. discriminate. }
  rewrite Eg. cbn [bind]. set (g := D / R) in *.
  assert (Hrho : 1 <= (8353535 # 1000000) <= 10) by (split; discriminate).
  pose proof (mul_range _ _ _ _ g (8353535 # 1000000) G1 Hrho eq_refl eq_refl) as G2.
  assert (R2 : rel (0 + 0 + 2 + 1 + 2) (f64_mul gen f64_rho_cp) (g * (8353535 # 1000000))).
  { apply mul_rel; [exact Rg|apply rho_rel|lra|lra| |].
    - apply eta_small. eapply Qle_trans; [|apply G2]. vm_compute. discriminate.
    - apply big_large. eapply Qle_trans; [apply G2|]. vm_compute. discriminate. }
  set (h := g * (8353535 # 1000000)) in *.
  pose proof (mul_range _ _ _ _ h T G2 Hdt eq_refl eq_refl) as G3.
  assert (R3 : rel (0 + 0 + 2 + 1 + 2 + 1 + 2) (f64_mul (f64_mul gen f64_rho_cp) (f64_sub supply inlet)) (h * T)).
  { apply mul_rel; [exact R2|exact Rs|lra|lra| |].
    - apply eta_small. eapply Qle_trans; [|apply G3]. vm_compute. discriminate.
    - apply big_large. eapply Qle_trans; [apply G3|]. vm_compute. discriminate. }
  pose proof (div_range _ _ _ _ (h * T) O G3 Ho eq_refl eq_refl) as G4.
  destruct (div_rel _ _ _ _ _ _ R3 Ro ltac:(lra) ltac:(lra)) as (x & Ex & Rx).
  { apply eta_small. eapply Qle_trans; [|apply G4]. vm_compute. discriminate. }
  { apply big_large. eapply Qle_trans; [apply G4|]. vm_compute. discriminate. }
  rewrite Ex. cbn [bind].
  assert (H1000 : 1000 <= 1000 <= 1000) by lra.
  pose proof (div_range _ _ _ _ (h * T / O) 1000 G4 H1000 eq_refl eq_refl) as G5.
  destruct (div_rel _ _ _ _ _ _ Rx thousand_rel ltac:(lra) ltac:(lra)) as (c & Ec & Rc).
  { apply eta_small. eapply Qle_trans; [|apply G5]. vm_compute. discriminate. }
  { apply big_large. eapply Qle_trans; [apply G5|]. vm_compute. discriminate. }
  exists c. split; [exact Ec|]. exact Rc.
Qed.
