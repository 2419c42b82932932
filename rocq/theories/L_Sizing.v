(** Proofs about the running-volume algorithm: periodic windows and the maximum deficit. *)
From Verif Require Import Prelude M_StratifiedTank M_Building M_Heater M_Sizing S_Sizing.
Open Scope Q_scope.

(** ** Window sums *)
Fixpoint wsum (f : nat -> Q) (i L : nat) : Q :=
  match L with O => 0 | S k => wsum f i k + f (i + k)%nat end.

Lemma wsum_app f i a b : wsum f i (a + b) == wsum f i a + wsum f (i + a) b.
Proof.
  induction b as [|b IH].
  - rewrite Nat.add_0_r. cbn [wsum]. lra.
  - rewrite Nat.add_succ_r. cbn [wsum]. rewrite IH. rewrite Nat.add_assoc. lra.
Qed.

Lemma wsum_cons f i L : wsum f i (S L) == f i + wsum f (S i) L.
Proof.
  change (S L) with (1 + L)%nat. rewrite wsum_app. cbn [wsum].
  rewrite Nat.add_0_r. replace (i + 1)%nat with (S i) by lia. lra.
Qed.

Lemma wsum_ext f g i L : (forall k, (k < L)%nat -> f (i + k)%nat == g (i + k)%nat) -> wsum f i L == wsum g i L.
Proof.
  induction L as [|L IH]; intros H; cbn [wsum]; [lra|].
  rewrite IH by (intros; apply H; lia). rewrite (H L) by lia. lra.
Qed.

Lemma wsum_shift f i a L : wsum f (i + a) L == wsum (fun k => f (k + a)%nat) i L.
Proof.
  induction L as [|L IH]; cbn [wsum]; [lra|]. rewrite IH.
  replace (i + a + L)%nat with (i + L + a)%nat by lia. lra.
Qed.

Lemma wsum_le f g i L : (forall k, (k < L)%nat -> f (i + k)%nat <= g (i + k)%nat) -> wsum f i L <= wsum g i L.
Proof.
  induction L as [|L IH]; intros H; cbn [wsum]; [lra|].
  assert (wsum f i L <= wsum g i L) by (apply IH; intros; apply H; lia).
  pose proof (H L ltac:(lia)). lra.
Qed.

Definition periodic (f : nat -> Q) (n : nat) : Prop := forall t, f (t + n)%nat = f t.

Section Periodic.
  Variables (f : nat -> Q) (n : nat).
  Hypothesis N : (0 < n)%nat.
  Hypothesis P : periodic f n.
  Hypothesis T0 : 0 <= wsum f 0 n.

  Lemma per_mul k t : f (t + k * n)%nat = f t.
  Proof.
    induction k as [|k IH]; [f_equal; lia|].
    replace (t + S k * n)%nat with ((t + k * n) + n)%nat by lia. rewrite P. exact IH.
  Qed.
  Lemma per_mod t : f (t mod n)%nat = f t.
  Proof.
    rewrite (Nat.div_mod t n) at 2 by lia.
    replace (n * (t / n) + t mod n)%nat with (t mod n + (t / n) * n)%nat by lia.
    symmetry. apply per_mul.
  Qed.
  Lemma wsum_per k i L : wsum f (i + k * n) L == wsum f i L.
  Proof.
    rewrite wsum_shift. apply wsum_ext. intros j _. rewrite per_mul. lra.
  Qed.
  Lemma wsum_mod i L : wsum f (i mod n) L == wsum f i L.
  Proof.
    rewrite (Nat.div_mod i n) at 2 by lia.
    replace (n * (i / n) + i mod n)%nat with (i mod n + (i / n) * n)%nat by lia.
    symmetry. apply wsum_per.
  Qed.
  (** Every window of one period has the same sum. *)
  Lemma wsum_day i : wsum f i n == wsum f 0 n.
  Proof.
    induction i as [|i IH]; [lra|].
    assert (A : wsum f i (n + 1) == wsum f i n + f i).
    { rewrite wsum_app. cbn [wsum]. rewrite Nat.add_0_r. rewrite P. lra. }
    assert (B : wsum f i (n + 1) == f i + wsum f (S i) n).
    { replace (n + 1)%nat with (S n) by lia. apply wsum_cons. }
    lra.
  Qed.
  Lemma wsum_days i k L : wsum f i L <= wsum f i (L + k * n).
  Proof.
    induction k as [|k IH]; [rewrite Nat.mul_0_l, Nat.add_0_r; lra|].
    replace (L + S k * n)%nat with ((L + k * n) + n)%nat by lia.
    rewrite wsum_app. rewrite wsum_day. lra.
  Qed.
  Lemma wsum_reduce i L : wsum f i (L mod n) <= wsum f i L.
  Proof.
    rewrite (Nat.div_mod L n) at 2 by lia.
    replace (n * (L / n) + L mod n)%nat with (L mod n + (L / n) * n)%nat by lia.
    apply wsum_days.
  Qed.

  (** Some hour of every day is a surplus hour. *)
  Lemma some_surplus i : exists j, (i <= j < i + n)%nat /\ 0 <= f j.
  Proof.
    assert (G : forall L, wsum f i L < 0 \/ (L = 0)%nat \/ exists j, (i <= j < i + L)%nat /\ 0 <= f j).
    { induction L as [|L IH]; [auto|].
      destruct (Qlt_le_dec (f (i + L)%nat) 0) as [A|A].
      - destruct IH as [B|[B|(j & Hj & B)]].
        + left. cbn [wsum]. lra.
        + subst L. left. cbn [wsum]. lra.
        + right; right. exists j. split; [lia|exact B].
      - right; right. exists (i + L)%nat. split; [lia|exact A]. }
    destruct (G n) as [A|[A|A]]; [|lia|exact A].
    rewrite wsum_day in A. lra.
  Qed.

  (** Going back from a deficit hour one reaches a transition from surplus to deficit. *)
  Lemma back_to_transition a j : 0 <= f a -> forall i, i = (a + j)%nat -> f i < 0 ->
    exists p, (a < p <= i)%nat /\ 0 <= f (p - 1)%nat /\ (forall k, (p <= k <= i)%nat -> f k < 0).
  Proof.
    intros Ha. induction j as [|j IH]; intros i E Hi.
    - subst i. rewrite Nat.add_0_r in Hi. lra.
    - destruct (Qlt_le_dec (f (a + j)%nat) 0) as [A|A].
      + destruct (IH (a + j)%nat eq_refl A) as (p & Hp & B & C).
        exists p. split; [lia|]. split; [exact B|]. intros k Hk.
        destruct (Nat.eq_dec k i) as [->|D]; [exact Hi|]. apply C. lia.
      + exists i. split; [lia|]. split.
        * replace (i - 1)%nat with (a + j)%nat by lia. exact A.
        * intros k Hk. replace k with i by lia. exact Hi.
  Qed.

  Lemma wsum_neg i L : (forall k, (i <= k < i + L)%nat -> f k < 0) -> wsum f i L <= 0.
  Proof.
    induction L as [|L IH]; intros H; cbn [wsum]; [lra|].
    assert (wsum f i L <= 0) by (apply IH; intros; apply H; lia).
    pose proof (H (i + L)%nat ltac:(lia)). lra.
  Qed.

  (** Every window is at least one that starts at a surplus-to-deficit transition of the first day
      and is shorter than a day. *)
  Lemma window_from_transition i L :
    0 <= wsum f i L \/
    exists p k, (p < n)%nat /\ (0 < k < n)%nat /\ 0 <= f (p + n - 1)%nat /\ f p < 0 /\
      wsum f p k <= wsum f i L.
  Proof.
    revert i. induction L as [|L IH]; intros i; [left; cbn [wsum]; lra|].
    destruct (Qlt_le_dec (f i) 0) as [A|A].
    - destruct (some_surplus i) as (a & Ha & Sa).
      assert (Ai : f (i + n)%nat < 0) by (rewrite P; exact A).
      destruct (back_to_transition a (i + n - a) Sa (i + n)%nat ltac:(lia) Ai) as (p & Hp & B & C).
      set (e := (i + n - p)%nat).
      assert (W : wsum f p (e + S L) <= wsum f i (S L)).
      { rewrite wsum_app. replace (p + e)%nat with (i + 1 * n)%nat by lia.
        rewrite wsum_per. assert (wsum f p e <= 0) by (apply wsum_neg; intros; apply C; lia). lra. }
      assert (W2 : wsum f (p mod n) ((e + S L) mod n) <= wsum f i (S L)).
      { rewrite wsum_mod. pose proof (wsum_reduce p (e + S L)). lra. }
      destruct (Nat.eq_dec ((e + S L) mod n) 0) as [Z|Z].
      + rewrite Z in W2. cbn [wsum] in W2. left. exact W2.
      + right. exists (p mod n)%nat, ((e + S L) mod n)%nat.
        pose proof (Nat.mod_upper_bound p n ltac:(lia)).
        pose proof (Nat.mod_upper_bound (e + S L) n ltac:(lia)).
        repeat split; try lia; try assumption.
        * replace (f (p mod n + n - 1)%nat) with (f (p - 1)%nat); [exact B|].
          rewrite <- per_mod. rewrite <- (per_mod (p mod n + n - 1)). f_equal.
          rewrite (Nat.div_mod p n) at 1 by lia.
          replace (n * (p / n) + p mod n - 1)%nat
            with ((n * (p / n) + p mod n) - 1)%nat by lia.
          destruct (p mod n) as [|q] eqn:Q.
          -- pose proof (Nat.div_mod p n ltac:(lia)). rewrite Q in *.
             destruct (p / n)%nat as [|k] eqn:K; [lia|].
             replace (n * S k + 0 - 1)%nat with ((n - 1) + k * n)%nat by lia.
             rewrite Nat.mod_add by lia. f_equal; lia.
          -- replace (n * (p / n) + S q - 1)%nat with (q + (p / n) * n)%nat by lia.
             replace (S q + n - 1)%nat with (q + 1 * n)%nat by lia.
             rewrite !Nat.mod_add by lia. reflexivity.
        * rewrite per_mod. apply C. lia.
    - destruct (IH (S i)) as [B|(p & k & Hp & Hk & B & C & D)].
      + left. rewrite wsum_cons. lra.
      + right. exists p, k. repeat split; try tauto; try lia. rewrite wsum_cons. lra.
  Qed.
End Periodic.

(** ** cumsum as window sums *)
Lemma cumsum_nth l : forall acc k, (k < length l)%nat ->
  nth k (cumsum_from acc l) 0 == acc + wsum (fun i => nth i l 0) 0 (S k).
Proof.
  induction l as [|x l IH]; intros acc k H; [cbn in H; lia|].
  destruct k as [|k].
  - cbn. lra.
  - cbn [cumsum_from nth]. rewrite IH by (cbn in H; lia).
    rewrite (wsum_cons (fun i => nth i (x :: l) 0) 0 (S k)).
    assert (E : wsum (fun i => nth i (x :: l) 0) 1 (S k) == wsum (fun i => nth i l 0) 0 (S k)).
    { change 1%nat with (0 + 1)%nat at 1. rewrite wsum_shift. apply wsum_ext. intros j _.
      rewrite !Nat.add_0_l. rewrite Nat.add_1_r. cbn [nth]. lra. }
    rewrite E. cbn [nth]. lra.
Qed.
Lemma cumsum_length l : forall acc, length (cumsum_from acc l) = length l.
Proof. induction l as [|x l IH]; intro acc; cbn; [reflexivity|]. f_equal. apply IH. Qed.

Lemma worst_deficit_spec cum :
  match worst_deficit cum with
  | None => forall x, In x cum -> 0 <= x
  | Some m => 0 < m /\ (forall x, In x cum -> - m <= x) /\ exists x, In x cum /\ m = - x
  end.
Proof.
  unfold worst_deficit. destruct (filter (fun x => qltb x 0) cum) as [|x r] eqn:F.
  - intros x H. destruct (Qlt_le_dec x 0) as [A|A]; [|exact A].
    assert (H0 : In x (filter (fun x => qltb x 0) cum)) by (apply filter_In; split; [exact H|apply qltb_true; exact A]).
    rewrite F in H0. destruct H0.
  - assert (Fl : forall y, In y (x :: r) -> In y cum /\ y < 0).
    { intros y Hy. rewrite <- F in Hy. apply filter_In in Hy. destruct Hy as [A B].
      apply qltb_true in B. auto. }
    assert (Min : In (qminl x r) (x :: r)) by (destruct (qminl_in x r) as [->|A]; [left|right]; auto).
    destruct (Fl _ Min) as [A B]. split; [lra|]. split.
    + intros y Hy. destruct (Qlt_le_dec y 0) as [C|C]; [|lra].
      assert (H : In y (x :: r)) by (rewrite <- F; apply filter_In; split; [exact Hy|apply qltb_true; exact C]).
      destruct (qminl_le x r) as [D E]. destruct H as [<-|H]; [lra|]. pose proof (E _ H). lra.
    + exists (qminl x r). auto.
Qed.

(** ** The running volume *)
Definition day_fun (d : list Q) (t : nat) : Q := nth (t mod length d) d 0.

Lemma day_fun_periodic d : d <> [] -> periodic (day_fun d) (length d).
Proof.
  intros N t. unfold day_fun. f_equal.
  replace (t + length d)%nat with (t + 1 * length d)%nat by lia.
  rewrite Nat.mod_add; [reflexivity|]. destruct d; [congruence|cbn; lia].
Qed.

Lemma nth_double d j : (j < 2 * length d)%nat -> nth j (d ++ d) 0 = day_fun d j.
Proof.
  intros H. unfold day_fun. destruct (Nat.lt_ge_cases j (length d)) as [A|A].
  - rewrite app_nth1 by exact A. rewrite Nat.mod_small by exact A. reflexivity.
  - rewrite app_nth2 by exact A. f_equal.
    replace j with ((j - length d) + 1 * length d)%nat at 2 by lia.
    rewrite Nat.mod_add by lia. rewrite Nat.mod_small by lia. reflexivity.
Qed.

Lemma nth_skipn {A} (l : list A) i k dflt : nth k (skipn i l) dflt = nth (i + k) l dflt.
Proof.
  revert l. induction i as [|i IH]; intros l; [reflexivity|].
  destruct l as [|x l]; [destruct k; reflexivity|]. cbn. apply IH.
Qed.

Lemma tail_cumsum d i k : (i + k < 2 * length d)%nat ->
  nth k (cumsum (skipn i (d ++ d))) 0 == wsum (day_fun d) i (S k).
Proof.
  intros H. unfold cumsum. rewrite cumsum_nth by (rewrite skipn_length, app_length; lia).
  rewrite Qplus_0_l.
  assert (E : wsum (day_fun d) i (S k) == wsum (fun j => day_fun d (j + i)%nat) 0 (S k)).
  { change i with (0 + i)%nat at 1. apply wsum_shift. }
  rewrite E. apply wsum_ext. intros j Hj. rewrite Nat.add_0_l. rewrite nth_skipn.
  rewrite nth_double by lia. rewrite Nat.add_comm. lra.
Qed.

Lemma in_tail_cumsum d i x : (i < length d)%nat -> In x (cumsum (skipn i (d ++ d))) ->
  exists k, (0 < k)%nat /\ (i + k <= 2 * length d)%nat /\ x == wsum (day_fun d) i k.
Proof.
  intros H Hx. apply (In_nth _ _ 0) in Hx. destruct Hx as (k & Hk & E).
  unfold cumsum in Hk. rewrite cumsum_length, skipn_length, app_length in Hk.
  exists (S k). split; [lia|]. split; [lia|]. rewrite <- tail_cumsum by lia. rewrite E. lra.
Qed.

Lemma tail_cumsum_in d i k : (0 < k)%nat -> (i + k <= 2 * length d)%nat ->
  exists x, In x (cumsum (skipn i (d ++ d))) /\ x == wsum (day_fun d) i k.
Proof.
  intros H0 H. destruct k as [|k]; [lia|].
  exists (nth k (cumsum (skipn i (d ++ d))) 0). split.
  - apply nth_In. unfold cumsum. rewrite cumsum_length, skipn_length, app_length. lia.
  - apply tail_cumsum. lia.
Qed.

Lemma peak_indices_in d i : In i (peak_indices d) <->
  (i < length d)%nat /\ 0 <= day_fun d (i + length d - 1)%nat /\ day_fun d i < 0.
Proof.
  unfold peak_indices. rewrite filter_In, in_seq, andb_true_iff, qleb_true, qltb_true.
  assert (E : (i < length d)%nat -> nth (prev_hour (length d) i) d 0 = day_fun d (i + length d - 1)
              /\ nth i d 0 = day_fun d i).
  { intros H. unfold day_fun. split; [|rewrite Nat.mod_small by exact H; reflexivity].
    destruct i as [|j]; cbn [prev_hour].
    - rewrite Nat.add_0_l. rewrite Nat.mod_small by lia. reflexivity.
    - replace (S j + length d - 1)%nat with (j + 1 * length d)%nat by lia.
      rewrite Nat.mod_add by lia. rewrite Nat.mod_small by lia. reflexivity. }
  split.
  - intros [[_ H] [A B]]. destruct (E H) as [E1 E2]. rewrite E1 in A. rewrite E2 in B. auto.
  - intros [H [A B]]. destruct (E H) as [E1 E2]. rewrite E1, E2. repeat split; auto; lia.
Qed.

(** What the fold over the transitions computes. *)
Definition deficit_step (d : list Q) (v : Q) (idx : nat) : Q :=
  match worst_deficit (cumsum (skipn idx (d ++ d))) with None => v | Some m => qmax v m end.

Lemma fold_deficit d idxs : forall v, 0 <= v -> (forall i, In i idxs -> (i < length d)%nat) ->
  let R := fold_left (deficit_step d) idxs v in
  v <= R /\
  (forall i k, In i idxs -> (0 < k)%nat -> (i + k <= 2 * length d)%nat -> - R <= wsum (day_fun d) i k) /\
  (R = v \/ exists i k, In i idxs /\ (0 < k)%nat /\ (i + k <= 2 * length d)%nat /\ R == - wsum (day_fun d) i k).
Proof.
  induction idxs as [|i0 r IH]; intros v Hv Hin R.
  - subst R. cbn. split; [lra|]. split; [tauto|left; reflexivity].
  - assert (Hi0 : (i0 < length d)%nat) by (apply Hin; left; reflexivity).
    set (v1 := deficit_step d v i0) in *.
    assert (V1 : v <= v1 /\ (forall k, (0 < k)%nat -> (i0 + k <= 2 * length d)%nat -> - v1 <= wsum (day_fun d) i0 k)
                 /\ (v1 = v \/ exists k, (0 < k)%nat /\ (i0 + k <= 2 * length d)%nat /\ v1 == - wsum (day_fun d) i0 k)).
    { subst v1. unfold deficit_step. pose proof (worst_deficit_spec (cumsum (skipn i0 (d ++ d)))) as W.
      destruct (worst_deficit (cumsum (skipn i0 (d ++ d)))) as [m|].
      - destruct W as (W1 & W2 & x & W3 & W4). split; [apply qmax_l|]. split.
        + intros k K1 K2. destruct (tail_cumsum_in d i0 k K1 K2) as (y & Y1 & Y2).
          pose proof (W2 y Y1). pose proof (qmax_r v m). lra.
        + destruct (qmax_spec v m) as [[A E]|[A E]]; rewrite E; [|left; reflexivity].
          right. destruct (in_tail_cumsum d i0 x Hi0 W3) as (k & K1 & K2 & K3).
          exists k. repeat split; auto. rewrite W4. lra.
      - split; [lra|]. split; [|left; reflexivity].
        intros k K1 K2. destruct (tail_cumsum_in d i0 k K1 K2) as (y & Y1 & Y2).
        pose proof (W y Y1). lra. }
    destruct V1 as (V1 & V2 & V3).
    destruct (IH v1 ltac:(lra) ltac:(intros; apply Hin; right; assumption)) as (A & B & C).
    change (fold_left (deficit_step d) r v1) with R in *.
    split; [lra|]. split.
    + intros i k [<-|Hi] K1 K2.
      * pose proof (V2 k K1 K2). lra.
      * apply B; auto.
    + destruct C as [C|(i & k & C1 & C2)].
      * rewrite C. destruct V3 as [V3|(k & V3)]; [left; exact V3|].
        right. exists i0, k. split; [left; reflexivity|exact V3].
      * right. exists i, k. split; [right; exact C1|exact C2].
Qed.

Lemma running_fold d : running_of_diff d = fold_left (deficit_step d) (peak_indices d) 0.
Proof. unfold running_of_diff, deficit_step. destruct (peak_indices d); reflexivity. Qed.

Lemma running_spec d :
  let R := running_of_diff d in
  0 <= R /\
  (forall i k, In i (peak_indices d) -> (0 < k)%nat -> (i + k <= 2 * length d)%nat -> - R <= wsum (day_fun d) i k) /\
  (R = 0 \/ exists i k, In i (peak_indices d) /\ (0 < k)%nat /\ (i + k <= 2 * length d)%nat /\ R == - wsum (day_fun d) i k).
Proof.
  cbv zeta. rewrite running_fold. apply fold_deficit; [lra|].
  intros i Hi. apply peak_indices_in in Hi. tauto.
Qed.

Lemma qsum_wsum d : qsum d == wsum (fun i => nth i d 0) 0 (length d).
Proof.
  induction d as [|x d IH]; [cbn; lra|].
  cbn [qsum length]. rewrite (wsum_cons _ 0 (length d)). rewrite IH. cbn [nth].
  assert (E : wsum (fun i => nth i (x :: d) 0) 1 (length d) == wsum (fun i => nth i d 0) 0 (length d)).
  { change 1%nat with (0 + 1)%nat at 1. rewrite wsum_shift. apply wsum_ext. intros j _.
    rewrite !Nat.add_0_l. rewrite Nat.add_1_r. cbn [nth]. lra. }
  rewrite E. lra.
Qed.
Lemma qsum_day d : qsum d == wsum (day_fun d) 0 (length d).
Proof.
  rewrite qsum_wsum. apply wsum_ext. intros k Hk. unfold day_fun. rewrite Nat.add_0_l.
  rewrite Nat.mod_small by lia. lra.
Qed.

(** Every window of the endless repetition has a deficit of at most the running volume. *)
Lemma running_bounds_all d i L : d <> [] -> 0 <= qsum d -> - running_of_diff d <= wsum (day_fun d) i L.
Proof.
  intros N S0. destruct (running_spec d) as (A & B & _).
  assert (Nn : (0 < length d)%nat) by (destruct d; [congruence|cbn; lia]).
  rewrite qsum_day in S0.
  destruct (window_from_transition _ _ Nn (day_fun_periodic d N) S0 i L)
    as [C|(p & k & Hp & Hk & C & D & E)]; [lra|].
  assert (Hpk : In p (peak_indices d)) by (apply peak_indices_in; auto).
  pose proof (B p k Hpk ltac:(lia) ltac:(lia)). lra.
Qed.

(** A positive running volume is the deficit of a window that starts in the first day and is no
    longer than a day. *)
Lemma running_attained d : d <> [] -> 0 <= qsum d -> 0 < running_of_diff d ->
  exists i k, (i < length d)%nat /\ (0 < k <= length d)%nat /\ running_of_diff d == - wsum (day_fun d) i k.
Proof.
  intros N S0 Rp. destruct (running_spec d) as (A & B & C).
  destruct C as [C|(i & k & Hi & K1 & K2 & C)]; [rewrite C in Rp; lra|].
  assert (Nn : (0 < length d)%nat) by (destruct d; [congruence|cbn; lia]).
  pose proof (proj1 (peak_indices_in d i) Hi) as [Hi1 _].
  rewrite qsum_day in S0.
  destruct (Nat.le_gt_cases k (length d)) as [L|L].
  - exists i, k. repeat split; auto.
  - exists i, (k - length d)%nat. split; [exact Hi1|]. split; [lia|].
    pose proof (B i (k - length d)%nat Hi ltac:(lia) ltac:(lia)) as B1.
    pose proof (wsum_days _ _ Nn (day_fun_periodic d N) S0 i 1 (k - length d)) as W.
    replace (k - length d + 1 * length d)%nat with k in W by lia. lra.
Qed.

(** ** The hourly store *)
Lemma level_upper V g dem s n : level V g dem s n <= V.
Proof. destruct n; cbn [level]; [lra|apply qmin_l]. Qed.

Lemma level_le_window V g dem s n : level V g dem s n <= V + wsum (fun t => g t - dem t) s n.
Proof.
  induction n as [|n IH]; cbn [level wsum]; [lra|].
  pose proof (qmin_r V (level V g dem s n + g (s + n)%nat - dem (s + n)%nat)). lra.
Qed.

Lemma level_window V g dem s n : exists j, (j <= n)%nat /\
  level V g dem s n == V + wsum (fun t => g t - dem t) (s + j) (n - j).
Proof.
  induction n as [|n IH].
  - exists 0%nat. split; [lia|]. cbn. lra.
  - cbn [level]. destruct (qmin_spec V (level V g dem s n + g (s + n)%nat - dem (s + n)%nat)) as [[A E]|[A E]]; rewrite E.
    + exists (S n). split; [lia|]. rewrite Nat.sub_diag. cbn [wsum]. lra.
    + destruct IH as (j & Hj & IH). exists j. split; [lia|].
      replace (S n - j)%nat with (S (n - j)) by lia. cbn [wsum].
      replace (s + j + (n - j))%nat with (s + n)%nat by lia. lra.
Qed.

Lemma level_ext V1 V2 g1 g2 d1 d2 s n : V1 == V2 -> (forall t, g1 t - d1 t == g2 t - d2 t) ->
  level V1 g1 d1 s n == level V2 g2 d2 s n.
Proof.
  intros E1 E2. induction n as [|n IH]; cbn [level]; [exact E1|].
  assert (E : level V1 g1 d1 s n + g1 (s + n)%nat - d1 (s + n)%nat
              == level V2 g2 d2 s n + g2 (s + n)%nat - d2 (s + n)%nat).
  { specialize (E2 (s + n)%nat). lra. }
  apply qmin_compat; assumption.
Qed.

Lemma day_fun_diff g daily shape t : shape <> [] ->
  day_fun (hourly_diff g daily shape) t == g - demand_at daily shape t.
Proof.
  intros N. unfold day_fun, demand_at, hourly_diff. rewrite map_length.
  assert (H : (t mod length shape < length shape)%nat) by (apply Nat.mod_upper_bound; destruct shape; [congruence|cbn; lia]).
  rewrite (nth_indep _ 0 ((fun f => g - daily * f) 0)) by (rewrite map_length; exact H).
  rewrite (map_nth (fun f => g - daily * f)). lra.
Qed.

Lemma wsum_diff g daily shape i L : shape <> [] ->
  wsum (day_fun (hourly_diff g daily shape)) i L == wsum (fun t => g - demand_at daily shape t) i L.
Proof. intros N. apply wsum_ext. intros k _. apply day_fun_diff. exact N. Qed.

Lemma hourly_diff_sum g daily shape :
  qsum (hourly_diff g daily shape) == g * qz (Z.of_nat (length shape)) - daily * qsum shape.
Proof.
  unfold hourly_diff. induction shape as [|x l IH]; [change (0 == g * 0 - daily * 0); ring|].
  cbn [map qsum length]. rewrite IH. rewrite Nat2Z.inj_succ. unfold qz, Z.succ. rewrite inject_Z_plus.
  change (inject_Z 1) with 1. lra.
Qed.

Lemma hourly_diff_nil g daily shape : shape <> [] -> hourly_diff g daily shape <> [].
Proof. destruct shape; cbn; congruence. Qed.

Lemma c35_never_negative g daily shape s n : shape <> [] ->
  daily * qsum shape <= g * qz (Z.of_nat (length shape)) ->
  0 <= level (running_of_diff (hourly_diff g daily shape)) (steady g) (demand_at daily shape) s n.
Proof.
  intros N H. set (d := hourly_diff g daily shape).
  destruct (level_window (running_of_diff d) (steady g) (demand_at daily shape) s n) as (j & Hj & E).
  rewrite E. unfold steady. rewrite <- wsum_diff by exact N.
  assert (S0 : 0 <= qsum d) by (unfold d; rewrite hourly_diff_sum; lra).
  pose proof (running_bounds_all d (s + j) (n - j) (hourly_diff_nil _ _ _ N) S0) as B.
  fold d. lra.
Qed.

Lemma c36_minimal g daily shape V : shape <> [] ->
  daily * qsum shape <= g * qz (Z.of_nat (length shape)) ->
  V < running_of_diff (hourly_diff g daily shape) ->
  exists s n, (s < length shape)%nat /\ (n <= length shape)%nat /\ level V (steady g) (demand_at daily shape) s n < 0.
Proof.
  intros N H HV. set (d := hourly_diff g daily shape) in *.
  assert (Nn : (0 < length shape)%nat) by (destruct shape; [congruence|cbn; lia]).
  assert (S0 : 0 <= qsum d) by (unfold d; rewrite hourly_diff_sum; lra).
  assert (Ld : length d = length shape) by (unfold d, hourly_diff; apply map_length).
  destruct (running_spec d) as (A & _).
  destruct (Qlt_le_dec 0 (running_of_diff d)) as [P|P].
  - destruct (running_attained d (hourly_diff_nil _ _ _ N) S0 P) as (i & k & Hi & Hk & E).
    rewrite Ld in *. exists i, k. split; [exact Hi|]. split; [lia|].
    pose proof (level_le_window V (steady g) (demand_at daily shape) i k) as W.
    unfold steady in W. rewrite <- wsum_diff in W by exact N. fold d in W. fold (steady g) in *. change (fun _ : nat => g) with (steady g) in W. lra.
  - exists 0%nat, 0%nat. split; [exact Nn|]. split; [lia|]. cbn [level]. lra.
Qed.

(** More generation never needs a larger store. *)
Lemma running_antitone g1 g2 daily shape : shape <> [] ->
  daily * qsum shape <= g1 * qz (Z.of_nat (length shape)) -> g1 <= g2 ->
  running_of_diff (hourly_diff g2 daily shape) <= running_of_diff (hourly_diff g1 daily shape).
Proof.
  intros N H G.
  assert (Nn : (0 < length shape)%nat) by (destruct shape; [congruence|cbn; lia]).
  assert (H2 : daily * qsum shape <= g2 * qz (Z.of_nat (length shape))).
  { assert (0 <= qz (Z.of_nat (length shape))) by (change 0 with (inject_Z 0); unfold qz; rewrite <- Zle_Qle; lia). nra. }
  assert (Sa : 0 <= qsum (hourly_diff g1 daily shape)) by (rewrite hourly_diff_sum; lra).
  assert (Sb : 0 <= qsum (hourly_diff g2 daily shape)) by (rewrite hourly_diff_sum; lra).
  destruct (running_spec (hourly_diff g1 daily shape)) as (A1 & _).
  destruct (Qlt_le_dec 0 (running_of_diff (hourly_diff g2 daily shape))) as [P|P]; [|lra].
  destruct (running_attained _ (hourly_diff_nil g2 daily _ N) Sb P) as (i & k & _ & _ & E).
  pose proof (running_bounds_all _ i k (hourly_diff_nil g1 daily _ N) Sa) as B.
  rewrite wsum_diff in E by exact N. rewrite wsum_diff in B by exact N.
  assert (W : wsum (fun t => g1 - demand_at daily shape t) i k <= wsum (fun t => g2 - demand_at daily shape t) i k)
    by (apply wsum_le; intros; lra).
  lra.
Qed.
