(** Lemmas for C82. *)
From Verif Require Import Prelude M_Building L_Building M_CaGpd S_CaGpd.
From Coq Require Import Qround Permutation Sorted.
Open Scope Q_scope.

(** *** Sorting *)
Lemma insert_perm x l : Permutation (insert x l) (x :: l).
Proof.
  induction l as [|y l IH]; cbn [insert]; [reflexivity|]. destruct (Qle_bool x y); [reflexivity|].
  rewrite IH. apply perm_swap.
Qed.
Lemma sort_perm l : Permutation (np_sort l) l.
Proof. induction l as [|x l IH]; cbn [np_sort]; [reflexivity|]. rewrite insert_perm, IH. reflexivity. Qed.
Lemma insert_sorted x l : StronglySorted Qle l -> StronglySorted Qle (insert x l).
Proof.
  induction 1 as [|y l SS IH F]; cbn [insert]; [constructor; constructor|].
  destruct (Qle_bool x y) eqn:E; qbool.
  - constructor; [constructor; assumption|]. constructor; [exact E|]. eapply Forall_impl; [|exact F]. intros z Z. lra.
  - constructor; [exact IH|]. apply Forall_forall. intros z Z. apply (Permutation_in _ (insert_perm x l)) in Z.
    destruct Z as [<-|Z]; [lra|]. rewrite Forall_forall in F. exact (F z Z).
Qed.
Lemma sort_sorted l : StronglySorted Qle (np_sort l).
Proof. induction l as [|x l IH]; cbn [np_sort]; [constructor|apply insert_sorted; exact IH]. Qed.

(** *** Ranks *)
Lemma filter_perm {A} f (l l' : list A) : Permutation l l' -> length (filter f l) = length (filter f l').
Proof.
  induction 1 as [|x l l' P IH|x y l|l1 l2 l3 P1 I1 P2 I2]; cbn [filter]; [reflexivity| | |congruence].
  - destruct (f x); cbn [length]; congruence.
  - destruct (f x), (f y); reflexivity.
Qed.
Lemma ranked_perm l l' k x : Permutation l l' -> is_ranked l k x -> is_ranked l' k x.
Proof.
  intros P [(y & I & E) B]. split; [exists y; split; [exact (Permutation_in _ P I)|exact E]|].
  unfold below, at_most in *. rewrite <- !(filter_perm _ _ _ P). exact B.
Qed.
Lemma sorted_rank l : StronglySorted Qle l -> forall k x, nth_error l k = Some x -> is_ranked l k x.
Proof.
  intros SS k x H. split; [exists x; split; [exact (nth_error_In _ _ H)|reflexivity]|]. revert k x H. induction SS as [|y l SS IH F]; intros k x H; [destruct k; discriminate H|].
  rewrite Forall_forall in F. unfold below, at_most in *. cbn [filter]. destruct k as [|k]; cbn [nth_error] in H.
  - injection H as <-. assert (E1 : qltb y y = false) by (apply Bool.not_true_is_false; intro C; qbool; lra).
    assert (E2 : Qle_bool y y = true) by (apply Qle_bool_iff; lra). rewrite E1, E2. cbn [length]. split; [|lia].
    assert (N : filter (fun z => qltb z y) l = []).
    { clear - F. induction l as [|z l IH]; [reflexivity|]. cbn [filter]. pose proof (F z (or_introl eq_refl)).
      destruct (qltb z y) eqn:E; [qbool; lra|]. apply IH. intros w W. apply F. right. exact W. }
    rewrite N. cbn. lia.
  - destruct (IH k x H) as [B A]. pose proof (F x (nth_error_In _ _ H)) as L.
    assert (E2 : Qle_bool y x = true) by (apply Qle_bool_iff; exact L). rewrite E2. cbn [length].
    destruct (qltb y x); cbn [length]; split; lia.
Qed.
Lemma ranked_unique l k x y : is_ranked l k x -> is_ranked l k y -> x == y.
Proof.
  assert (W : forall x y, is_ranked l k x -> is_ranked l k y -> ~ x < y).
  { clear. intros x y [_ [_ A]] [_ [B _]] L. assert (at_most x l <= below y l)%nat; [|lia]. unfold at_most, below. clear - L.
    induction l as [|z l IH]; [reflexivity|]. cbn [filter]. destruct (Qle_bool z x) eqn:E1, (qltb z y) eqn:E2; cbn [length]; try lia. qbool. lra. }
  intros X Y. destruct (Q_dec x y) as [[L|L]|E]; [destruct (W _ _ X Y L)|destruct (W _ _ Y X L)|exact E].
Qed.
Lemma qltb_ext a b c d : a == b -> c == d -> qltb a c = qltb b d.
Proof. intros E F. destruct (qltb a c) eqn:X, (qltb b d) eqn:Y; try reflexivity; qbool; lra. Qed.
Lemma qleb_ext a b c d : a == b -> c == d -> Qle_bool a c = Qle_bool b d.
Proof. intros E F. destruct (Qle_bool a c) eqn:X, (Qle_bool b d) eqn:Y; try reflexivity; qbool; lra. Qed.
Lemma filter_ext2 (f g : Q -> bool) l l' : Forall2 (fun a b => f a = g b) l l' -> length (filter f l) = length (filter g l').
Proof. induction 1 as [|a b l l' E F IH]; [reflexivity|]. cbn [filter]. rewrite E. destruct (g b); cbn [length]; congruence. Qed.
Lemma forall2_impl {A B} (R1 R2 : A -> B -> Prop) : (forall a b, R1 a b -> R2 a b) -> forall l l', Forall2 R1 l l' -> Forall2 R2 l l'.
Proof. intros I l l' H. induction H; constructor; auto. Qed.
Lemma ranked_scale l l' c k x x' : 0 < c -> Forall2 (fun a b => b == c * a) l l' -> x' == c * x -> is_ranked l k x -> is_ranked l' k x'.
Proof.
  intros C F X [(y & I & E) [B A]].
  assert (MON : forall a b, a < b <-> c * a < c * b).
  { intros a b. split; intro H.
    - assert (0 < c * (b - a)) by (apply qmul_pos; lra). lra.
    - destruct (Qlt_le_dec a b) as [L|L]; [exact L|]. assert (0 <= c * (a - b)) by (apply qmul_nonneg; lra). lra. }
  split.
  - clear - I E F X. induction F as [|a b l l' E' F IH]; [destruct I|]. destruct I as [->|I].
    + exists b. split; [left; reflexivity|]. rewrite E', X, E. reflexivity.
    + destruct (IH I) as (z & Z & ZE). exists z. split; [right; exact Z|exact ZE].
  - unfold below, at_most in *.
    rewrite <- (filter_ext2 (fun y => qltb y x) (fun y => qltb y x') l l'), <- (filter_ext2 (fun y => Qle_bool y x) (fun y => Qle_bool y x') l l'); [split; assumption| |].
    + eapply forall2_impl; [|exact F]. intros a b Eb. cbv beta in Eb. destruct (Qle_bool a x) eqn:P1, (Qle_bool b x') eqn:P2; try reflexivity; qbool.
      * exfalso. assert (x < a) by (apply (MON x a); lra). lra.
      * exfalso. assert (H : c * x < c * a) by (apply (MON x a); exact P1). lra.
    + eapply forall2_impl; [|exact F]. intros a b Eb. cbv beta in Eb. destruct (qltb a x) eqn:P1, (qltb b x') eqn:P2; try reflexivity; qbool.
      * exfalso. assert (H : c * a < c * x) by (apply (MON a x); exact P1). lra.
      * exfalso. assert (a < x) by (apply (MON a x); lra). lra.
Qed.

(** *** Rounding *)
Lemma round_even_spec x : Qabs (qz (round_even x) - x) <= 1 # 2 /\ (Qabs (qz (round_even x) - x) == 1 # 2 -> Z.Even (round_even x)).
Proof.
  pose proof (Qfloor_le x) as F1. pose proof (Qlt_floor x) as F2. unfold round_even. set (f := Qfloor x) in *.
  change (inject_Z f) with (qz f) in F1. assert (F3 : x < qz f + 1) by (rewrite inject_Z_plus in F2; exact F2). clear F2.
  assert (P1 : qz (f + 1) == qz f + 1) by (unfold qz; rewrite inject_Z_plus; reflexivity).
  assert (AB : forall a, (0 <= a -> Qabs a == a) /\ (a <= 0 -> Qabs a == - a)) by (intro a; split; [apply Qabs_pos|apply Qabs_neg]).
  destruct (qltb (x - qz f) (1 # 2)) eqn:E1; [|destruct (qltb (1 # 2) (x - qz f)) eqn:E2; [|destruct (Z.even f) eqn:EV]]; qbool.
  - destruct (AB (qz f - x)) as [_ A]. rewrite A by lra. split; [lra|]. intro; lra.
  - destruct (AB (qz (f + 1) - x)) as [A _]. rewrite A by lra. split; [lra|]. intro; lra.
  - destruct (AB (qz f - x)) as [_ A]. rewrite A by lra. split; [lra|]. intros _. apply Z.even_spec. exact EV.
  - destruct (AB (qz (f + 1) - x)) as [A _]. rewrite A by lra. split; [lra|]. intros _. apply Z.even_spec. rewrite Z.even_add, EV. reflexivity.
Qed.
Lemma round1_nearest x : nearest_tenth x (round1 x).
Proof.
  unfold round1, nearest_tenth. destruct (round_even_spec (x * 10)) as [A B]. exists (round_even (x * 10)). split; [reflexivity|].
  assert (E : qz (round_even (x * 10)) - 10 * x == qz (round_even (x * 10)) - x * 10) by ring. rewrite !E. split; assumption.
Qed.
Lemma nearest_unique x y g h : x == y -> nearest_tenth x g -> nearest_tenth y h -> g == h.
Proof.
  intros XY (z & -> & A & B) (w & -> & C & D). rewrite <- XY in C, D.
  assert (BA : - (1 # 2) <= qz z - 10 * x <= 1 # 2) by (apply Qabs_Qle_condition; exact A).
  assert (BC : - (1 # 2) <= qz w - 10 * x <= 1 # 2) by (apply Qabs_Qle_condition; exact C).
  destruct (Z.lt_trichotomy z w) as [L|[->|L]]; [|reflexivity|]; exfalso.
  - assert (W : qz z + 1 <= qz w) by (unfold qz; change 1 with (inject_Z 1); rewrite <- inject_Z_plus, <- Zle_Qle; lia).
    assert (T1 : Qabs (qz z - 10 * x) == 1 # 2) by (rewrite Qabs_neg; lra).
    assert (T2 : Qabs (qz w - 10 * x) == 1 # 2) by (rewrite Qabs_pos; lra).
    assert (WE : w = (z + 1)%Z).
    { assert (qz w <= qz z + 1) by lra. unfold qz in H. change 1 with (inject_Z 1) in H. rewrite <- inject_Z_plus, <- Zle_Qle in H. lia. }
    destruct (B T1) as [a ->], (D T2) as [b E]. lia.
  - assert (W : qz w + 1 <= qz z) by (unfold qz; change 1 with (inject_Z 1); rewrite <- inject_Z_plus, <- Zle_Qle; lia).
    assert (T1 : Qabs (qz z - 10 * x) == 1 # 2) by (rewrite Qabs_pos; lra).
    assert (T2 : Qabs (qz w - 10 * x) == 1 # 2) by (rewrite Qabs_neg; lra).
    assert (WE : z = (w + 1)%Z).
    { assert (qz z <= qz w + 1) by lra. unfold qz in H. change 1 with (inject_Z 1) in H. rewrite <- inject_Z_plus, <- Zle_Qle in H. lia. }
    destruct (B T1) as [a E], (D T2) as [b ->]. lia.
Qed.

(** *** The percentile *)
Lemma percentile_98 l : length l = 365%nat ->
  exists lo hi p, np_percentile l 98 = Ok p /\ is_ranked l 356 lo /\ is_ranked l 357 hi /\ p == lo + (18 # 25) * (hi - lo).
Proof.
  intro L. unfold np_percentile. cbv zeta. rewrite L.
  assert (LS : length (np_sort l) = 365%nat) by (rewrite (Permutation_length (sort_perm l)); exact L).
  assert (FL : Qfloor (98 / 100 * qz (Z.of_nat 365 - 1)) = 356%Z) by (vm_compute; reflexivity). rewrite FL.
  change (Z.min (356 + 1) (Z.of_nat 365 - 1)) with 357%Z.
  assert (ST : forall k, (k < 365)%nat -> exists x, py_nth (np_sort l) (Z.of_nat k) = Ok x /\ is_ranked l k x).
  { intros k K. destruct (nth_error (np_sort l) k) as [x|] eqn:E; [|apply nth_error_None in E; lia]. exists x. split.
    - unfold py_nth. cbv zeta. assert (B1 : (Z.of_nat k <? 0)%Z = false) by (apply Z.ltb_ge; lia). rewrite B1.
      assert (B2 : (Z.of_nat (length (np_sort l)) <=? Z.of_nat k)%Z = false) by (apply Z.leb_gt; lia).
      rewrite B1, B2, Nat2Z.id, E. reflexivity.
    - apply (ranked_perm _ _ _ _ (sort_perm l)). apply sorted_rank; [apply sort_sorted|exact E]. }
  destruct (ST 356%nat ltac:(lia)) as (lo & N1 & R1). destruct (ST 357%nat ltac:(lia)) as (hi & N2 & R2).
  change (Z.of_nat 356) with 356%Z in N1. change (Z.of_nat 357) with 357%Z in N2. rewrite N1. cbn [bind]. rewrite N2. cbn [bind].
  exists lo, hi. eexists. split; [reflexivity|]. split; [exact R1|]. split; [exact R2|].
  assert (E : 98 / 100 * qz (Z.of_nat 365 - 1) - qz 356 == 18 # 25) by (vm_compute; reflexivity). rewrite E. ring.
Qed.

(** *** Day totals *)
Lemma add_rows_ok rows : forall units acc n, length acc = n -> (forall r, In r rows -> length r = n) -> length rows = length units ->
  exists t, add_rows acc rows units = Ok t /\ length t = n /\ forall d, (d < n)%nat -> nth d t 0 == nth d acc 0 + day_gallons rows units d.
Proof.
  induction rows as [|row rows IH]; intros [|u units] acc n LA LR LU; try discriminate LU.
  - exists acc. split; [reflexivity|]. split; [exact LA|]. intros d _. cbn [day_gallons]. ring.
  - cbn [add_rows].
    assert (V : forall a b, length a = length b -> exists r, vadd a b = Ok r).
    { clear. induction a as [|x a IH]; intros [|y b] L; try discriminate L; [exists []; reflexivity|]. destruct (IH b ltac:(cbn in L; lia)) as (r & E). exists (x + y :: r). cbn. rewrite E. reflexivity. }
    assert (LM : length (map (fun x => qz u * x) row) = n) by (rewrite map_length; apply LR; left; reflexivity).
    destruct (V acc (map (fun x => qz u * x) row)) as (r & E); [congruence|]. rewrite E. cbn [bind].
    destruct (vadd_ok _ _ _ E) as (L1 & L2 & K1).
    destruct (IH units r n) as (t & T1 & T2 & T3); [congruence|intros q Q; apply LR; right; exact Q|cbn in LU; lia|].
    exists t. split; [exact T1|]. split; [exact T2|]. intros d D. rewrite (T3 d D), K1 by lia. cbn [day_gallons].
    rewrite nth_map_scale. ring.
Qed.
Lemma totals_ok rows units : length rows = length units -> (forall r, In r rows -> length r = 365%nat) ->
  exists t, day_totals rows units = Ok t /\ length t = 365%nat /\ Forall2 Qeq t (year_days rows units).
Proof.
  intros LU LR. destruct (add_rows_ok rows units (repeat 0 365) 365 (repeat_length 0 365) LR LU) as (t & E & L & N).
  exists t. split; [exact E|]. split; [exact L|]. unfold year_days. clear E.
  assert (G : forall n t k, length t = n -> (forall d, (d < n)%nat -> nth d t 0 == day_gallons rows units (k + d)) -> Forall2 Qeq t (map (day_gallons rows units) (seq k n))).
  { clear. induction n as [|n IH]; intros [|x t] k L H; try discriminate L; [constructor|]. cbn [seq map]. constructor.
    - pose proof (H 0%nat ltac:(lia)) as H0. cbn [nth] in H0. rewrite Nat.add_0_r in H0. exact H0.
    - apply IH; [cbn in L; lia|]. intros d D. specialize (H (S d) ltac:(lia)). cbn [nth] in H. rewrite <- Nat.add_succ_comm in H. exact H. }
  apply G; [exact L|]. intros d D. rewrite (N d D). assert (Z0 : nth d (repeat 0 365) 0 = 0) by apply nth_repeat. rewrite Z0. cbn [Nat.add]. ring.
Qed.
