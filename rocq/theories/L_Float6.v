(** Lemmas on sizing in binary64: the loop's daily volume and the storage volume are correct to a few units in the
    last place. *)
From Coq Require Import ZArith List SpecFloat Lia.
From Verif Require Import Prelude M_Float L_Float M_Float2 S_Float2 L_Float2 M_Float3 L_Float3 L_Float4 L_Float5.
From Coq Require Import Qabs Lqa.
Open Scope Q_scope.

Lemma sixty_rel : rel 0 (f64_of_int 60) 60.
Proof. split; [split; [vm_compute; reflexivity|vm_compute; exact I]|]. split; [reflexivity|]. vm_compute. discriminate. Qed.
Lemma day_rel : rel 0 (f64_of_int 24) 24.
Proof. split; [split; [vm_compute; reflexivity|vm_compute; exact I]|]. split; [reflexivity|]. vm_compute. discriminate. Qed.

Lemma sub_rel x y : f64_finite x -> f64_finite y -> 1 # 1000 <= f64_val x - f64_val y <= 1000000000 ->
  rel 1 (f64_sub x y) (f64_val x - f64_val y).
Proof.
  intros Fx Fy H. assert (A : Qabs (f64_val x - f64_val y) <= 1000000000) by (apply abs_le; lra).
  destruct (sub_err x y Fx Fy) as (F & E).
  - eapply Qle_trans; [exact A|]. vm_compute. discriminate.
  - split; [exact F|]. split; [lra|]. rewrite (Qabs_pos (f64_val x - f64_val y)) in E by lra. lra.
Qed.

(** A relation together with the range of its exact value. *)
Definition ranged (k : Q) (x : spec_float) (q lo hi : Q) : Prop := rel k x q /\ lo <= q <= hi.

Lemma mul_ranged a b x y p q l1 h1 l2 h2 : ranged a x p l1 h1 -> ranged b y q l2 h2 -> 0 <= a <= 50 -> 0 <= b <= 50 ->
  0 < l1 -> 0 < l2 -> 1 # 1000000000000000000000000000000 <= l1 * l2 -> h1 * h2 <= 1000000000000000000000000000000 ->
  ranged (a + b + 2) (f64_mul x y) (p * q) (l1 * l2) (h1 * h2).
Proof.
  intros (R1 & G1) (R2 & G2) A B L1 L2 Lo Hi. pose proof (mul_range _ _ _ _ p q G1 G2 L1 L2) as G. split; [|exact G].
  apply mul_rel; try assumption; [apply eta_small|apply big_large]; lra.
Qed.

Lemma div_ranged a b x y p q l1 h1 l2 h2 : ranged a x p l1 h1 -> ranged b y q l2 h2 -> 0 <= a <= 50 -> 0 <= b <= 50 ->
  0 < l1 -> 0 < l2 -> 1 # 1000000000000000000000000000000 <= l1 / h2 -> h1 / l2 <= 1000000000000000000000000000000 ->
  exists z, f64_div x y = Ok z /\ ranged (a + b + 2) z (p / q) (l1 / h2) (h1 / l2).
Proof.
  intros (R1 & G1) (R2 & G2) A B L1 L2 Lo Hi. pose proof (div_range _ _ _ _ p q G1 G2 L1 L2) as G.
  destruct (div_rel a b x y p q R1 R2 A B) as (z & E & R); [apply eta_small; lra|apply big_large; lra|].
  exists z. split; [exact E|]. split; assumption.
Qed.

Lemma loop_f64 flow supply ret inlet :
  f64_finite flow -> f64_finite supply -> f64_finite ret -> f64_finite inlet ->
  let ok v := 1 # 1000 <= v <= 1000000000 in
  ok (f64_val flow) -> ok (f64_val supply - f64_val ret) -> ok (f64_val supply - f64_val inlet) ->
  exists l v, f64_recirc_loss flow supply ret = Ok l /\ f64_recirc_daily flow supply ret inlet = Ok v /\
    rel 10 l (f64_val flow * 60 * (8353535 # 1000000) * (f64_val supply - f64_val ret) / 1000) /\
    rel 20 v (f64_val flow * 60 * (8353535 # 1000000) * (f64_val supply - f64_val ret) / 1000 * 1000
                / ((8353535 # 1000000) * (f64_val supply - f64_val inlet)) * 24).
Proof.
  intros Ff Fs Fr Fi ok Hf Ht Hd. unfold ok in *. clear ok.
  assert (Rf : ranged 0 flow (f64_val flow) (1 # 1000) 1000000000) by (split; [apply rel_exact; split; [exact Ff|lra]|exact Hf]).
  assert (Rt : ranged 1 (f64_sub supply ret) (f64_val supply - f64_val ret) (1 # 1000) 1000000000) by (split; [apply sub_rel; assumption|exact Ht]).
  assert (Rd : ranged 1 (f64_sub supply inlet) (f64_val supply - f64_val inlet) (1 # 1000) 1000000000) by (split; [apply sub_rel; assumption|exact Hd]).
  assert (Rrho : ranged 1 f64_rho_cp (8353535 # 1000000) 1 10) by (split; [apply rho_rel|split; discriminate]).
  assert (R60 : ranged 0 (f64_of_int 60) 60 60 60) by (split; [apply sixty_rel|lra]).
  assert (R24 : ranged 0 (f64_of_int 24) 24 24 24) by (split; [apply day_rel|lra]).
  assert (R1k : ranged 0 (f64_of_int 1000) 1000 1000 1000) by (split; [apply thousand_rel|lra]).
  pose proof (mul_ranged _ _ _ _ _ _ _ _ _ _ Rf R60 ltac:(lra) ltac:(lra) eq_refl eq_refl ltac:(vm_compute; discriminate) ltac:(vm_compute; discriminate)) as A1.
  pose proof (mul_ranged _ _ _ _ _ _ _ _ _ _ A1 Rrho ltac:(lra) ltac:(lra) eq_refl eq_refl ltac:(vm_compute; discriminate) ltac:(vm_compute; discriminate)) as A2.
  pose proof (mul_ranged _ _ _ _ _ _ _ _ _ _ A2 Rt ltac:(lra) ltac:(lra) eq_refl eq_refl ltac:(vm_compute; discriminate) ltac:(vm_compute; discriminate)) as A3.
  destruct (div_ranged _ _ _ _ _ _ _ _ _ _ A3 R1k ltac:(lra) ltac:(lra) eq_refl eq_refl ltac:(vm_compute; discriminate) ltac:(vm_compute; discriminate)) as (l & El & A4).
  pose proof (mul_ranged _ _ _ _ _ _ _ _ _ _ A4 R1k ltac:(lra) ltac:(lra) eq_refl eq_refl ltac:(vm_compute; discriminate) ltac:(vm_compute; discriminate)) as A5.
  pose proof (mul_ranged _ _ _ _ _ _ _ _ _ _ Rrho Rd ltac:(lra) ltac:(lra) eq_refl eq_refl ltac:(vm_compute; discriminate) ltac:(vm_compute; discriminate)) as A6.
  destruct (div_ranged _ _ _ _ _ _ _ _ _ _ A5 A6 ltac:(lra) ltac:(lra) eq_refl eq_refl ltac:(vm_compute; discriminate) ltac:(vm_compute; discriminate)) as (x & Ex & A7).
  pose proof (mul_ranged _ _ _ _ _ _ _ _ _ _ A7 R24 ltac:(lra) ltac:(lra) eq_refl eq_refl ltac:(vm_compute; discriminate) ltac:(vm_compute; discriminate)) as A8.
  exists l, (f64_mul x (f64_of_int 24)). unfold f64_recirc_daily, f64_recirc_loss. rewrite El. cbn [bind]. rewrite Ex. cbn [bind].
  split; [reflexivity|]. split; [reflexivity|]. split; [exact (proj1 A4)|exact (proj1 A8)].
Qed.

Lemma storage_f64 r f lo : f64_finite r -> f64_finite f -> 0 < lo ->
  1 # 1000 <= f64_val r <= 1000000000 -> lo <= f64_val f <= 1000000000 -> 1 # 1000000 <= lo ->
  exists z, f64_div r f = Ok z /\ rel 2 z (f64_val r / f64_val f).
Proof.
  intros Fr Ff L0 Hr Hf Hlo.
  assert (A : ranged 0 r (f64_val r) (1 # 1000) 1000000000) by (split; [apply rel_exact; split; [exact Fr|lra]|exact Hr]).
  assert (B : ranged 0 f (f64_val f) (1 # 1000000) 1000000000) by (split; [apply rel_exact; split; [exact Ff|lra]|lra]).
  destruct (div_ranged _ _ _ _ _ _ _ _ _ _ A B ltac:(lra) ltac:(lra) eq_refl eq_refl ltac:(vm_compute; discriminate) ltac:(vm_compute; discriminate)) as (z & E & (R & _)).
  exists z. split; [exact E|exact R].
Qed.
