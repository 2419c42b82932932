(** Lemmas on sizing in binary64: the running volume stays close to the exact one. *)
From Coq Require Import ZArith List SpecFloat Lia.
From Verif Require Import Prelude M_Float M_Float2 S_Float2 M_Sizing S_Sizing L_Sizing M_Float3 L_Float3.
From Coq Require Import Qabs Lqa.
Import ListNotations.
Open Scope Q_scope.

Lemma abs_le a b : Qabs a <= b <-> - b <= a /\ a <= b.
Proof. split; [apply Qabs_Qle_condition|apply Qabs_Qle_condition]. Qed.

Lemma abs_nonneg_l (e a : Q) : Qabs a <= e -> 0 <= e.
Proof. intros H. pose proof (Qabs_nonneg a). lra. Qed.

Lemma F2_length {A B} (R : A -> B -> Prop) l l' : Forall2 R l l' -> length l = length l'.
Proof. induction 1; cbn; congruence. Qed.

(** *** Exact level: perturbing the hourly differences *)

Lemma wsum_close f g e i k : (forall t, (i <= t < i + k)%nat -> Qabs (f t - g t) <= e) ->
  Qabs (wsum f i k - wsum g i k) <= qz (Z.of_nat k) * e.
Proof.
  induction k as [|k IH]; intros H.
  - cbn [wsum]. change (qz (Z.of_nat 0)) with 0. setoid_replace (0 - 0) with 0 by ring. cbn. lra.
  - cbn [wsum]. assert (A := IH ltac:(intros; apply H; lia)). assert (B := H (i + k)%nat ltac:(lia)).
    rewrite Nat2Z.inj_succ. unfold qz, Z.succ in *. rewrite inject_Z_plus. change (inject_Z 1) with 1.
    apply abs_le in A. apply abs_le in B. apply abs_le. lra.
Qed.

Lemma wsum_le f g i k : (forall t, f t <= g t) -> wsum f i k <= wsum g i k.
Proof. intros H. induction k as [|k IH]; cbn [wsum]; [lra|]. specialize (H (i + k)%nat). lra. Qed.

Lemma day_fun_map (h : Q -> Q) d t : d <> [] -> day_fun (map h d) t = h (day_fun d t).
Proof.
  intros N. unfold day_fun. rewrite map_length.
  assert (H : (t mod length d < length d)%nat) by (apply Nat.mod_upper_bound; destruct d; [congruence|cbn; lia]).
  rewrite (nth_indep _ 0 (h 0)) by (rewrite map_length; exact H). apply map_nth.
Qed.

Lemma Forall2_nth_close d' d e : Forall2 (fun a b => Qabs (a - b) <= e) d' d -> 0 <= e ->
  forall i, Qabs (nth i d' 0 - nth i d 0) <= e.
Proof.
  intros F He. induction F as [|a b l l' H F IH]; intros [|i]; cbn [nth]; auto;
  try (setoid_replace (0 - 0) with 0 by ring; cbn; exact He).
Qed.

Lemma Forall2_day_close d' d e : Forall2 (fun a b => Qabs (a - b) <= e) d' d -> 0 <= e ->
  forall t, Qabs (day_fun d' t - day_fun d t) <= e.
Proof.
  intros F He t. unfold day_fun. rewrite (F2_length _ _ _ F). apply Forall2_nth_close; assumption.
Qed.

Lemma qz_nat_mono a b e : 0 <= e -> (a <= b)%nat -> qz (Z.of_nat a) * e <= qz (Z.of_nat b) * e.
Proof.
  intros He H. apply Qmult_le_compat_r; [|exact He]. unfold qz. rewrite <- Zle_Qle. lia.
Qed.
Lemma qz_nat_nonneg a : 0 <= qz (Z.of_nat a).
Proof. unfold qz. change 0 with (inject_Z 0). rewrite <- Zle_Qle. lia. Qed.

(** Raising the hours that are not in deficit changes neither the transitions nor any sign. *)
Definition raise (c x : Q) : Q := if Qle_bool 0 x then x + c else x.
Lemma raise_le c x : 0 <= c -> x <= raise c x /\ raise c x <= x + c.
Proof. intros H. unfold raise. destruct (Qle_bool 0 x); lra. Qed.
Lemma raise_sign c x : 0 <= c -> (0 <= raise c x <-> 0 <= x) /\ (raise c x < 0 <-> x < 0).
Proof. intros H. unfold raise. destruct (Qle_bool 0 x) eqn:E; qbool; split; split; intros; lra. Qed.

Lemma raise_sum c d : 0 <= c -> (forall x, In x d -> x < 0) \/ qsum d + c <= qsum (map (raise c) d).
Proof.
  intros H. induction d as [|x d IH]; [left; intros x []|].
  assert (M : qsum d <= qsum (map (raise c) d)).
  { clear IH. induction d as [|y d IH]; cbn [map qsum]; [lra|]. pose proof (raise_le c y H). lra. }
  cbn [map qsum]. pose proof (raise_le c x H). destruct (Qlt_le_dec x 0) as [A|A].
  - destruct IH as [IH|IH]; [left; intros y [<-|Y]; auto|right; lra].
  - right. unfold raise at 1. rewrite (proj2 (qleb_true 0 x) A). lra.
Qed.

Lemma raise_peaks c d i : d <> [] -> 0 <= c -> In i (peak_indices (map (raise c) d)) <-> In i (peak_indices d).
Proof.
  intros N H. rewrite !peak_indices_in, map_length, !day_fun_map by exact N.
  pose proof (raise_sign c (day_fun d (i + length d - 1)) H). pose proof (raise_sign c (day_fun d i) H). tauto.
Qed.

(** If the exact differences do not sum to a deficit, differences off by at most [e] each have a running volume
    that is off by at most [(n*n + n) * e]. *)
Lemma running_perturb d' d e : Forall2 (fun a b => Qabs (a - b) <= e) d' d -> 0 <= e -> d <> [] -> 0 <= qsum d ->
  Qabs (running_of_diff d' - running_of_diff d)
    <= qz (Z.of_nat (length d)) * (qz (Z.of_nat (length d)) * e) + qz (Z.of_nat (length d)) * e.
Proof.
  intros F He N S0. pose proof (F2_length _ _ _ F) as LL. set (n := length d) in *.
  assert (Nn : (0 < n)%nat) by (unfold n; destruct d; [congruence|cbn; lia]).
  assert (N' : d' <> []) by (destruct d'; [cbn in LL; lia|discriminate]).
  pose proof (Forall2_day_close _ _ _ F He) as C.
  assert (W : forall i k, Qabs (wsum (day_fun d') i k - wsum (day_fun d) i k) <= qz (Z.of_nat k) * e)
    by (intros i k; apply wsum_close; intros t _; apply C).
  set (c := qz (Z.of_nat n) * e).
  assert (Hc : 0 <= c) by (unfold c; apply Qmult_le_0_compat; [apply qz_nat_nonneg|exact He]).
  assert (N1 : 1 <= qz (Z.of_nat n)) by (unfold qz; change 1 with (inject_Z 1); rewrite <- Zle_Qle; lia).
  assert (Hcc : c <= qz (Z.of_nat n) * c).
  { setoid_replace c with (1 * c) at 1 by ring. apply Qmult_le_compat_r; assumption. }
  destruct (running_spec d') as (R0' & RB' & RA'). destruct (running_spec d) as (R0 & RB & RA).
  apply abs_le. split.
  - (* the exact one is not much larger *)
    destruct (Qlt_le_dec 0 (running_of_diff d)) as [P|P]; [|lra].
    destruct (running_attained d N S0 P) as (i & k & Hi & Hk & E). fold n in Hi, Hk.
    destruct (raise_sum c d' Hc) as [A|A].
    + (* every perturbed hour is in deficit *)
      assert (D0 : forall t, day_fun d t <= e).
      { intros t. specialize (C t). apply abs_le in C.
        assert (In (day_fun d' t) d') by (unfold day_fun; apply nth_In, Nat.mod_upper_bound; lia).
        specialize (A _ H). lra. }
      assert (Tot : wsum (day_fun d) i n == qsum d).
      { pose proof (wsum_day (day_fun d) n Nn (day_fun_periodic d N) i) as T. rewrite T. symmetry. apply qsum_day. }
      replace n with (k + (n - k))%nat in Tot at 1 by lia. rewrite wsum_app in Tot.
      assert (B : wsum (day_fun d) (i + k) (n - k) <= qz (Z.of_nat (n - k)) * e).
      { clear - D0. generalize (i + k)%nat as a. generalize (n - k)%nat as m. induction m as [|m IH]; intros a.
        - cbn [wsum]. change (qz (Z.of_nat 0)) with 0. lra.
        - cbn [wsum]. rewrite Nat2Z.inj_succ. unfold qz, Z.succ in *. rewrite inject_Z_plus. change (inject_Z 1) with 1.
          specialize (IH a). specialize (D0 (a + m)%nat). lra. }
      pose proof (qz_nat_mono (n - k) n e He ltac:(lia)) as Q. fold c in Q. lra.
    + (* some hour is not: raise those hours *)
      set (d2 := map (raise c) d') in *.
      assert (N2 : d2 <> []) by (unfold d2; destruct d'; [congruence|discriminate]).
      assert (S2 : 0 <= qsum d2).
      { pose proof (W 0%nat n) as W0. assert (E1 : wsum (day_fun d') 0 n == qsum d') by (rewrite <- LL; symmetry; apply qsum_day).
        assert (E2 : wsum (day_fun d) 0 n == qsum d) by (symmetry; apply qsum_day).
        apply abs_le in W0. fold c in W0. lra. }
      assert (R2 : running_of_diff d2 <= running_of_diff d').
      { destruct (running_spec d2) as (_ & _ & RA2). destruct RA2 as [Z|(p & q & Hp & Q1 & Q2 & Z)]; [rewrite Z; exact R0'|].
        unfold d2 in Hp. apply raise_peaks in Hp; [|exact N'|exact Hc].
        assert (LD : length d2 = length d') by (unfold d2; apply map_length). rewrite LD in Q2.
        specialize (RB' p q Hp Q1 Q2).
        assert (wsum (day_fun d') p q <= wsum (day_fun d2) p q).
        { apply wsum_le. intros t. unfold d2. rewrite day_fun_map by exact N'. apply raise_le. exact Hc. }
        lra. }
      pose proof (running_bounds_all d2 i k N2 S2) as B2.
      assert (U : Qabs (wsum (day_fun d2) i k - wsum (day_fun d') i k) <= qz (Z.of_nat k) * c).
      { apply wsum_close. intros t _. unfold d2. rewrite day_fun_map by exact N'.
        pose proof (raise_le c (day_fun d' t) Hc). apply abs_le. lra. }
      pose proof (W i k) as V. apply abs_le in U. apply abs_le in V.
      pose proof (qz_nat_mono k n c Hc ltac:(lia)). pose proof (qz_nat_mono k n e He ltac:(lia)). fold c in H0. lra.
  - (* the perturbed one is not much larger *)
    destruct RA' as [Z|(i & k & Hi & K1 & K2 & Z)]; [rewrite Z; lra|].
    pose proof (running_bounds_all d i k N S0) as B. specialize (W i k). apply abs_le in W.
    pose proof (qz_nat_mono k (2 * n) e He ltac:(lia)) as Q.
    assert (E : qz (Z.of_nat (2 * n)) * e == c + c).
    { unfold c, qz. replace (Z.of_nat (2 * n)) with (Z.of_nat n + Z.of_nat n)%Z by lia. rewrite inject_Z_plus. ring. }
    lra.
Qed.

(** *** Floating-point sums, deficits and the loop *)

Lemma zero_finite : f64_finite f64_zero.
Proof. split; [reflexivity|exact I]. Qed.

Definition fin_close (e : Q) (x : spec_float) (q : Q) : Prop := f64_finite x /\ Qabs (f64_val x - q) <= e.

Section Sums.
  Variable M : Q.
  Hypothesis M0 : 0 <= M.
  Hypothesis Mbig : 100 * M <= f64_big.
  Let w : Q := 50 * (f64_u * M).

  Lemma add_step e a s q x : f64_finite s -> f64_finite x -> Qabs (f64_val x) <= M ->
    Qabs (f64_val s - q) <= e -> e <= 47 * w -> Qabs q <= a -> a <= 47 * M ->
    fin_close (e + w) (f64_add s x) (q + f64_val x) /\ Qabs (q + f64_val x) <= a + M.
  Proof.
    intros Fs Fx Hx He Le Hq La. apply abs_le in Hx, He, Hq.
    assert (Wv : w == (50 # 9007199254740992) * M) by (unfold w, f64_u; change (1 # 2 ^ 53) with (1 # 9007199254740992); ring).
    assert (Bd : Qabs (f64_val s + f64_val x) <= 49 * M) by (apply abs_le; lra).
    destruct (add_err s x Fs Fx ltac:(lra)) as (G & E).
    split; [split; [exact G|]|].
    - change f64_u with (1 # 9007199254740992) in E.
      assert (E2 : Qabs (f64_val (f64_add s x) - (f64_val s + f64_val x)) <= (1 # 9007199254740992) * (49 * M)).
      { eapply Qle_trans; [exact E|]. apply Qmult_le_l; [reflexivity|exact Bd]. }
      apply abs_le in E2. apply abs_le. lra.
    - apply abs_le. lra.
  Qed.

  Lemma cumsum_close l : forall k s q, Forall (fun x => f64_finite x /\ Qabs (f64_val x) <= M) l ->
    f64_finite s -> Qabs (f64_val s - q) <= qz (Z.of_nat k) * w -> Qabs q <= qz (Z.of_nat k) * M ->
    (k + length l <= 48)%nat ->
    Forall2 (fin_close (48 * w)) (f64_cumsum_from s l) (cumsum_from q (map f64_val l)).
  Proof.
    assert (W0 : 0 <= w).
    { unfold w. apply Qmult_le_0_compat; [discriminate|]. apply Qmult_le_0_compat; [discriminate|exact M0]. }
    induction l as [|x l IH]; intros k s q Fl Fs He Hq Hk; cbn [f64_cumsum_from map cumsum_from]; [constructor|].
    inversion Fl as [|? ? (Fx & Hx) Fl']; subst. cbn [length] in Hk.
    pose proof (qz_nat_mono k 47 w W0 ltac:(lia)) as K1. pose proof (qz_nat_mono k 47 M M0 ltac:(lia)) as K2.
    change (qz (Z.of_nat 47)) with 47 in K1, K2.
    destruct (add_step _ _ s q x Fs Fx Hx He K1 Hq K2) as ((G & E) & B).
    assert (SK : forall y, qz (Z.of_nat (S k)) * y == qz (Z.of_nat k) * y + y).
    { intros y. rewrite Nat2Z.inj_succ. unfold qz, Z.succ. rewrite inject_Z_plus. change (inject_Z 1) with 1. ring. }
    constructor.
    - split; [exact G|]. lra.
    - apply IH with (k := S k); auto; try lia; rewrite SK; assumption.
  Qed.

  Lemma cumsum_close0 l : Forall (fun x => f64_finite x /\ Qabs (f64_val x) <= M) l -> (length l <= 48)%nat ->
    Forall2 (fin_close (48 * w)) (f64_cumsum l) (cumsum (map f64_val l)).
  Proof.
    intros Fl Hl. destruct l as [|x l]; [constructor|]. inversion Fl as [|? ? (Fx & Hx) Fl']; subst.
    assert (W0 : 0 <= w).
    { unfold w. apply Qmult_le_0_compat; [discriminate|]. apply Qmult_le_0_compat; [discriminate|exact M0]. }
    unfold cumsum. cbn [f64_cumsum map cumsum_from]. constructor.
    - split; [exact Fx|]. apply abs_le. lra.
    - apply cumsum_close with (k := 1%nat); auto.
      + change (qz (Z.of_nat 1)) with 1. apply abs_le. lra.
      + change (qz (Z.of_nat 1)) with 1. rewrite Qplus_0_l, Qmult_1_l. exact Hx.
  Qed.
End Sums.

(** The deficit as a number, zero when there is none. *)
Definition wd (cum : list Q) : Q := match worst_deficit cum with None => 0 | Some m => m end.
Definition fwd (cum : list spec_float) : Q := match f64_worst cum with None => 0 | Some m => f64_val m end.

(** What the float version of "the most negative entry" returns. *)
Lemma f64_worst_spec cum : Forall f64_finite cum ->
  match f64_worst cum with
  | None => forall x, In x cum -> 0 <= f64_val x
  | Some m => f64_finite m /\ 0 < f64_val m /\ (forall x, In x cum -> - f64_val m <= f64_val x)
              /\ exists x, In x cum /\ f64_val m == - f64_val x
  end.
Proof.
  intros F. unfold f64_worst.
  assert (FI : forall x, In x (filter (fun x => SFltb x f64_zero) cum) <-> In x cum /\ f64_val x < 0).
  { intros x. rewrite filter_In. split; intros [A B].
    - split; [exact A|]. rewrite ltb_val in B; [|rewrite Forall_forall in F; auto|apply zero_finite].
      apply qltb_true in B. exact B.
    - split; [exact A|]. rewrite ltb_val; [|rewrite Forall_forall in F; auto|apply zero_finite].
      apply qltb_true. exact B. }
  destruct (filter (fun x => SFltb x f64_zero) cum) as [|x r] eqn:E.
  - intros x Hx. destruct (Qlt_le_dec (f64_val x) 0) as [A|A]; [|exact A]. destruct (proj2 (FI x) (conj Hx A)).
  - assert (G : forall r x, f64_finite x -> Forall f64_finite r ->
        let m := fold_left f64_min r x in
        f64_finite m /\ f64_val m <= f64_val x /\ (forall y, In y r -> f64_val m <= f64_val y) /\ (m = x \/ In m r)).
    { clear. induction r as [|y r IH]; intros x Fx Fr; cbn [fold_left].
      - repeat split; try apply Fx; try lra; try (intros ? []); left; reflexivity.
      - inversion Fr as [|? ? Fy Fr']; subst.
        assert (MF : f64_finite (f64_min x y)) by (unfold f64_min; destruct (SFltb y x); assumption).
        assert (MV : f64_val (f64_min x y) <= f64_val x /\ f64_val (f64_min x y) <= f64_val y).
        { unfold f64_min. rewrite ltb_val by assumption. destruct (qltb (f64_val y) (f64_val x)) eqn:C; qbool; lra. }
        destruct (IH (f64_min x y) MF Fr') as (A & B & C & D). cbv zeta.
        split; [exact A|]. split; [lra|]. split.
        + intros z [<-|Hz]; [lra|auto].
        + destruct D as [D|D]; [|right; right; exact D]. rewrite D. unfold f64_min. destruct (SFltb y x); [right; left; reflexivity|left; reflexivity]. }
    assert (Fr : Forall f64_finite (x :: r)).
    { rewrite Forall_forall in *. intros y Hy. apply F. apply FI in Hy. tauto. }
    inversion Fr as [|? ? Fx Fr']; subst. destruct (G r x Fx Fr') as (A & B & C & D). set (m := fold_left f64_min r x) in *.
    destruct (opp_val m A) as (OA & OB).
    assert (Im : In m (x :: r)) by (destruct D as [->|D]; [left; reflexivity|right; exact D]).
    apply FI in Im. split; [exact OA|]. split; [lra|]. split.
    + intros y Hy. rewrite OB. destruct (Qlt_le_dec (f64_val y) 0) as [Y|Y]; [|lra].
      destruct (proj2 (FI y) (conj Hy Y)) as [<-|Hr]; [lra|]. specialize (C y Hr). lra.
    + exists m. split; [tauto|exact OB].
Qed.

Lemma F2_in_l {A B} (R : A -> B -> Prop) l l' x : Forall2 R l l' -> In x l -> exists y, In y l' /\ R x y.
Proof.
  intros F. induction F as [|a b l l' H F IH]; intros I; [destruct I|].
  destruct I as [<-|I]; [exists b; cbn; auto|]. destruct (IH I) as (z & ? & ?). exists z. cbn. auto.
Qed.
Lemma F2_in_r {A B} (R : A -> B -> Prop) l l' y : Forall2 R l l' -> In y l' -> exists x, In x l /\ R x y.
Proof.
  intros F. induction F as [|a b l l' H F IH]; intros I; [destruct I|].
  destruct I as [<-|I]; [exists a; cbn; auto|]. destruct (IH I) as (z & ? & ?). exists z. cbn. auto.
Qed.

Lemma wd_close e cum cq : 0 <= e -> Forall2 (fin_close e) cum cq -> Qabs (fwd cum - wd cq) <= e.
Proof.
  intros He F. unfold fwd, wd.
  assert (Ff : Forall f64_finite cum) by (clear - F; induction F as [|? ? ? ? [? ?]]; constructor; auto).
  pose proof (f64_worst_spec cum Ff) as W1. pose proof (worst_deficit_spec cq) as W2.
  destruct (f64_worst cum) as [m|], (worst_deficit cq) as [q|]; apply abs_le.
  - destruct W1 as (_ & P1 & B1 & x & X1 & X2). destruct W2 as (P2 & B2 & y & Y1 & Y2). rewrite Y2 in *.
    destruct (F2_in_l _ _ _ _ F X1) as (y' & Iy & _ & C1). destruct (F2_in_r _ _ _ _ F Y1) as (x' & Ix & _ & C2).
    specialize (B1 x' Ix). specialize (B2 y' Iy). apply abs_le in C1, C2. lra.
  - destruct W1 as (_ & P1 & B1 & x & X1 & X2).
    destruct (F2_in_l _ _ _ _ F X1) as (y' & Iy & _ & C1). specialize (W2 y' Iy). apply abs_le in C1. lra.
  - destruct W2 as (P2 & B2 & y & Y1 & Y2). rewrite Y2 in *.
    destruct (F2_in_r _ _ _ _ F Y1) as (x' & Ix & _ & C2). specialize (W1 x' Ix). apply abs_le in C2. lra.
  - lra.
Qed.

Lemma f64_max_val a b : f64_finite a -> f64_finite b ->
  f64_finite (f64_max a b) /\ f64_val (f64_max a b) == qmax (f64_val a) (f64_val b).
Proof.
  intros Fa Fb. unfold f64_max. rewrite ltb_val by assumption.
  destruct (qltb (f64_val a) (f64_val b)) eqn:E; qbool.
  - split; [exact Fb|]. destruct (qmax_spec (f64_val a) (f64_val b)) as [[A ->]|[A ->]]; lra.
  - split; [exact Fa|]. destruct (qmax_spec (f64_val a) (f64_val b)) as [[A ->]|[A ->]]; lra.
Qed.

Definition f64_step (d : list spec_float) (v : spec_float) (idx : nat) : spec_float :=
  match f64_worst (f64_cumsum (skipn idx (d ++ d))) with None => v | Some m => f64_max v m end.

Lemma step_close e d v q i : 0 <= e -> f64_finite v -> 0 <= f64_val v -> 0 <= q -> Qabs (f64_val v - q) <= e ->
  Forall2 (fin_close e) (f64_cumsum (skipn i (d ++ d))) (cumsum (skipn i (map f64_val d ++ map f64_val d))) ->
  f64_finite (f64_step d v i) /\ 0 <= f64_val (f64_step d v i) /\ 0 <= deficit_step (map f64_val d) q i /\
  Qabs (f64_val (f64_step d v i) - deficit_step (map f64_val d) q i) <= e.
Proof.
  intros He Fv V0 Q0 C F. pose proof (wd_close e _ _ He F) as W. unfold wd, fwd in W.
  assert (Ff : Forall f64_finite (f64_cumsum (skipn i (d ++ d)))) by (clear - F; induction F as [|? ? ? ? [? ?]]; constructor; auto).
  pose proof (f64_worst_spec _ Ff) as W1. pose proof (worst_deficit_spec (cumsum (skipn i (map f64_val d ++ map f64_val d)))) as W2.
  unfold f64_step, deficit_step.
  destruct (f64_worst (f64_cumsum (skipn i (d ++ d)))) as [m|];
  destruct (worst_deficit (cumsum (skipn i (map f64_val d ++ map f64_val d)))) as [r|];
  try (destruct W1 as (Fm & Pm & _)); try (destruct W2 as (Pr & _));
  try (destruct (f64_max_val v m Fv Fm) as (G & E));
  try (destruct (qmax_spec (f64_val v) (f64_val m)) as [[A1 E1]|[A1 E1]]; rewrite E1 in E);
  try (destruct (qmax_spec q r) as [[A2 E2]|[A2 E2]]; rewrite E2);
  (split; [assumption|]); apply abs_le in C; apply abs_le in W; (split; [lra|]); (split; [lra|]); apply abs_le; lra.
Qed.

Lemma f64_running_fold d : f64_running_of_diff d = fold_left (f64_step d) (f64_peaks d) f64_zero.
Proof. reflexivity. Qed.

Lemma peaks_val d : Forall f64_finite d -> f64_peaks d = peak_indices (map f64_val d).
Proof.
  intros F. unfold f64_peaks, peak_indices. rewrite map_length. apply filter_ext. intros i.
  assert (G : forall j, f64_finite (nth j d f64_zero)).
  { intros j. destruct (nth_in_or_default j d f64_zero) as [H| ->]; [|apply zero_finite]. rewrite Forall_forall in F. auto. }
  rewrite leb_val, ltb_val by (auto using zero_finite).
  change 0 with (f64_val f64_zero). rewrite !(map_nth f64_val). reflexivity.
Qed.

Lemma running_close M d : 0 <= M -> 100 * M <= f64_big -> (length d <= 24)%nat ->
  Forall (fun x => f64_finite x /\ Qabs (f64_val x) <= M) d ->
  f64_finite (f64_running_of_diff d) /\ 0 <= f64_val (f64_running_of_diff d) /\
  Qabs (f64_val (f64_running_of_diff d) - running_of_diff (map f64_val d)) <= 2400 * (f64_u * M).
Proof.
  intros M0 MB L F. rewrite f64_running_fold, running_fold.
  assert (Ff : Forall f64_finite d) by (eapply Forall_impl; [|exact F]; cbn; tauto).
  rewrite peaks_val by exact Ff. set (e := 2400 * (f64_u * M)).
  assert (He : 0 <= e) by (unfold e; apply Qmult_le_0_compat; [discriminate|]; apply Qmult_le_0_compat; [discriminate|exact M0]).
  assert (E : e == 48 * (50 * (f64_u * M))) by (unfold e; ring).
  assert (S : forall i, Forall2 (fin_close e) (f64_cumsum (skipn i (d ++ d))) (cumsum (skipn i (map f64_val d ++ map f64_val d)))).
  { intros i. rewrite <- map_app, skipn_map.
    assert (G : Forall2 (fin_close (48 * (50 * (f64_u * M)))) (f64_cumsum (skipn i (d ++ d))) (cumsum (map f64_val (skipn i (d ++ d))))).
    { apply cumsum_close0; auto.
      - rewrite Forall_forall in *. intros x Hx. assert (In x (d ++ d)).
        { rewrite <- (firstn_skipn i (d ++ d)). apply in_or_app. right. exact Hx. }
        apply F. apply in_app_or in H. tauto.
      - rewrite skipn_length, app_length. lia. }
    clear - G E. induction G as [|? ? ? ? [G1 G2] G IH]; constructor; auto. split; [exact G1|]. rewrite E. exact G2. }
  assert (G : forall l v q, f64_finite v -> 0 <= f64_val v -> 0 <= q -> Qabs (f64_val v - q) <= e ->
    f64_finite (fold_left (f64_step d) l v) /\ 0 <= f64_val (fold_left (f64_step d) l v) /\
    Qabs (f64_val (fold_left (f64_step d) l v) - fold_left (deficit_step (map f64_val d)) l q) <= e).
  { induction l as [|i r IH]; intros v q Fv V0 Q0 Z; cbn [fold_left]; [tauto|].
    destruct (step_close e d v q i He Fv V0 Q0 Z (S i)) as (A & B & C & D). apply IH; assumption. }
  apply G; [apply zero_finite| | |]; change (f64_val f64_zero) with 0; try lra. apply abs_le. lra.
Qed.

(** *** The hourly differences *)
Lemma one_hour D gen g f : 0 < D -> f64_eta <= f64_u * D -> 100 * (4 * D) <= f64_big ->
  f64_finite gen -> Qabs (f64_val gen - g) <= 2 * (f64_u * D) -> 0 <= g <= D ->
  forall daily, f64_finite daily -> f64_val daily == D -> f64_finite f -> 0 <= f64_val f <= 1 ->
  fin_close (6 * (f64_u * D)) (f64_sub gen (f64_mul daily f)) (g - D * f64_val f) /\
  Qabs (f64_val (f64_sub gen (f64_mul daily f))) <= (9 # 8) * D.
Proof.
  intros D0 Et Bg Fg Cg Hg daily Fd Ed Ff Hf.
  assert (P : 0 <= D * f64_val f <= D) by (split; nra).
  assert (Pe : f64_val daily * f64_val f == D * f64_val f) by (rewrite Ed; reflexivity).
  assert (Pa : Qabs (f64_val daily * f64_val f) <= D) by (apply abs_le; lra).
  destruct (mul_err daily f Fd Ff ltac:(lra)) as (Fm & Em).
  assert (Em2 : Qabs (f64_val (f64_mul daily f) - f64_val daily * f64_val f) <= 2 * (f64_u * D)).
  { eapply Qle_trans; [exact Em|]. assert (f64_u * Qabs (f64_val daily * f64_val f) <= f64_u * D) by (apply Qmult_le_l; [reflexivity|exact Pa]). lra. }
  change f64_u with (1 # 9007199254740992) in *. apply abs_le in Cg, Em2.
  set (m := f64_mul daily f) in *.
  assert (Sa : Qabs (f64_val gen - f64_val m) <= (9 # 8) * D) by (apply abs_le; lra).
  destruct (sub_err gen m Fg Fm ltac:(lra)) as (Fs & Es).
  change f64_u with (1 # 9007199254740992) in Es.
  assert (Es2 : Qabs (f64_val (f64_sub gen m) - (f64_val gen - f64_val m)) <= (9 # 8) * ((1 # 9007199254740992) * D)).
  { eapply Qle_trans; [exact Es|].
    assert ((1 # 9007199254740992) * Qabs (f64_val gen - f64_val m) <= (1 # 9007199254740992) * ((9 # 8) * D)) by (apply Qmult_le_l; [reflexivity|exact Sa]). lra. }
  apply abs_le in Es2. split; [split; [exact Fs|]|]; apply abs_le; lra.
Qed.

(** *** The running volume *)
Lemma running_f64 daily run shape : f64_positive daily -> f64_eta <= f64_u * f64_val daily ->
  1000 * f64_val daily <= f64_big -> f64_finite run -> 1 <= f64_val run ->
  shape <> [] -> (length shape <= 24)%nat -> Forall (fun f => f64_finite f /\ 0 <= f64_val f <= 1) shape ->
  f64_val run * qsum (map f64_val shape) <= qz (Z.of_nat (length shape)) ->
  exists r, f64_running daily run shape = Ok r /\ f64_finite r /\ 0 <= f64_val r /\
    Qabs (f64_val r - running_of_diff (hourly_diff (f64_val daily / f64_val run) (f64_val daily) (map f64_val shape)))
      <= 8192 * (f64_u * f64_val daily).
Proof.
  intros (Fd & D0) Et Bg Frn R1 N L Fs S0. set (D := f64_val daily) in *. set (g := D / f64_val run).
  assert (Rz : ~ f64_val run == 0) by lra.
  assert (Gg : 0 <= g <= D).
  { unfold g. split; [apply Qle_shift_div_l; lra|apply Qle_shift_div_r; [lra|nra]]. }
  assert (Ga : Qabs g <= D) by (apply abs_le; lra).
  destruct (div_err daily run Fd Frn Rz ltac:(fold D; fold g; lra)) as (gen & Eg & Fg & Cg). fold D in Cg. fold g in Cg.
  assert (Cg2 : Qabs (f64_val gen - g) <= 2 * (f64_u * D)).
  { eapply Qle_trans; [exact Cg|]. assert (f64_u * Qabs g <= f64_u * D) by (apply Qmult_le_l; [reflexivity|exact Ga]). lra. }
  unfold f64_running. rewrite Eg. cbn [bind].
  set (d := map (fun f => f64_sub gen (f64_mul daily f)) shape).
  assert (H : forall f, In f shape -> fin_close (6 * (f64_u * D)) (f64_sub gen (f64_mul daily f)) (g - D * f64_val f) /\
     Qabs (f64_val (f64_sub gen (f64_mul daily f))) <= (9 # 8) * D).
  { intros f If. rewrite Forall_forall in Fs. destruct (Fs f If) as (Ff & Hf).
    apply one_hour; auto; try lra. reflexivity. }
  assert (U0 : 0 <= f64_u * D) by (apply Qmult_le_0_compat; [discriminate|lra]).
  destruct (running_close ((9 # 8) * D) d ltac:(lra) ltac:(lra)) as (Fr & R0 & C).
  { unfold d. rewrite map_length. exact L. }
  { unfold d. rewrite Forall_forall. intros x Hx. apply in_map_iff in Hx. destruct Hx as (f & <- & If).
    destruct (H f If) as ((A & _) & B). split; assumption. }
  eexists. split; [reflexivity|]. split; [exact Fr|]. split; [exact R0|].
  set (de := hourly_diff g D (map f64_val shape)).
  assert (F2 : Forall2 (fun a b => Qabs (a - b) <= 6 * (f64_u * D)) (map f64_val d) de).
  { unfold d, de, hourly_diff. rewrite !map_map. clear - H. induction shape as [|f l IH]; cbn [map]; constructor.
    - apply (H f). left. reflexivity.
    - apply IH. intros; apply H; right; assumption. }
  assert (Ld : length de = length shape) by (unfold de, hourly_diff; rewrite !map_length; reflexivity).
  assert (Nd : de <> []) by (intro E; rewrite E in Ld; destruct shape; [congruence|discriminate]).
  assert (Sd : 0 <= qsum de).
  { unfold de. rewrite hourly_diff_sum, map_length.
    assert (Q : D * qsum (map f64_val shape) <= D / f64_val run * qz (Z.of_nat (length shape))).
    { setoid_replace (D * qsum (map f64_val shape)) with (D / f64_val run * (f64_val run * qsum (map f64_val shape))) by (field; exact Rz).
      fold g. rewrite !(Qmult_comm g). apply Qmult_le_compat_r; [exact S0|lra]. }
    fold g in Q. lra. }
  pose proof (running_perturb _ _ _ F2 ltac:(lra) Nd Sd) as P. rewrite Ld in P.
  set (nq := qz (Z.of_nat (length shape))) in *. set (e := 6 * (f64_u * D)) in *.
  assert (N24 : 0 <= nq <= 24).
  { unfold nq, qz. change 0 with (inject_Z 0). change 24 with (inject_Z 24). rewrite <- !Zle_Qle. lia. }
  assert (He : 0 <= e) by (unfold e; lra).
  assert (P1 : nq * e <= 24 * e) by (apply Qmult_le_compat_r; lra).
  assert (P2 : nq * (nq * e) <= 24 * (24 * e)).
  { apply Qle_trans with (24 * (nq * e)); [apply Qmult_le_compat_r; [lra|]; apply Qmult_le_0_compat; lra|]. lra. }
  apply abs_le in C, P. apply abs_le.
  assert (C2 : 2400 * (f64_u * ((9 # 8) * D)) == 2700 * (f64_u * D)) by ring.
  unfold e in *. lra.
Qed.
