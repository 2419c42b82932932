(** Proofs about Building and ClimateZone. *)
From Verif Require Import Prelude M_Building S_Building.
From Verif Require Import L_Heater.

(** ** Loads *)

Definition load_at (b : building) (use_avg : bool) (iv t : Z) : Q :=
  let ls := shape_of b use_avg in
  bd_daily b * nth (Z.to_nat (((t * iv) / 60) mod Z.of_nat (length ls))) ls 0 * qz iv / 60.

Lemma bd_load_ok b t iv u :
  shape_of b u <> [] -> bd_load b t iv u = Ok (load_at b u iv t).
Proof.
  intro N. unfold bd_load, load_at. fold (shape_of b u). cbv zeta.
  set (ls := shape_of b u) in *.
  assert (L : (0 < Z.of_nat (length ls))%Z) by (destruct ls; [congruence|cbn [length]; lia]).
  destruct (Z.of_nat (length ls) =? 0)%Z eqn:E; [apply Z.eqb_eq in E; lia|].
  pose proof (Z.mod_pos_bound (t * iv / 60) (Z.of_nat (length ls)) L) as B.
  set (h := ((t * iv / 60) mod Z.of_nat (length ls))%Z) in *.
  rewrite (py_nth_nonneg ls h (nth (Z.to_nat h) ls 0)); [reflexivity|lia|].
  apply nth_error_nth'. lia.
Qed.

Lemma bd_load_inv b t iv u x :
  bd_load b t iv u = Ok x -> shape_of b u <> [] /\ x = load_at b u iv t.
Proof.
  intro H. assert (N : shape_of b u <> []).
  { intro C. unfold bd_load in H. fold (shape_of b u) in H. rewrite C in H. discriminate. }
  split; [exact N|]. rewrite bd_load_ok in H by exact N. congruence.
Qed.

Lemma hour_unique n iv t h :
  (0 < n)%Z -> in_hour n iv t h -> ((t * iv / 60) mod n)%Z = h.
Proof.
  intros Hn [Hh [d Hd]].
  assert (E : (t * iv / 60 = n * d + h)%Z).
  { symmetry. apply (Z.div_unique _ _ _ (t * iv - 60 * (n * d + h))); [left; lia|lia]. }
  rewrite E. replace (n * d + h)%Z with (h + d * n)%Z by lia.
  rewrite Z.mod_add by lia. apply Z.mod_small. lia.
Qed.

Lemma hour_exists n iv t : (0 < n)%Z -> in_hour n iv t ((t * iv / 60) mod n).
Proof.
  intro Hn. split; [apply Z.mod_pos_bound; exact Hn|].
  exists (t * iv / 60 / n)%Z.
  rewrite <- (Z.div_mod (t * iv / 60) n) by lia.
  pose proof (Z.div_mod (t * iv) 60 ltac:(lia)). pose proof (Z.mod_pos_bound (t * iv) 60 ltac:(lia)). lia.
Qed.

(** ** Sums over windows of steps *)

Lemma qsum_seq_app (f : nat -> Q) a n m :
  qsum (map f (seq a (n + m))) == qsum (map f (seq a n)) + qsum (map f (seq (a + n) m)).
Proof. rewrite seq_app, map_app, qsum_app. reflexivity. Qed.

Lemma qsum_map_const {A} (l : list A) (f : A -> Q) c :
  (forall x, In x l -> f x == c) -> qsum (map f l) == qz (Z.of_nat (length l)) * c.
Proof.
  intro H. rewrite (qsum_map_ext f (fun _ => c) l H).
  clear H. induction l as [|a l IH]; [change (0 == 0 * c); lra|].
  cbn [map qsum length]. rewrite IH, Nat2Z.inj_succ. unfold qz, Z.succ. rewrite inject_Z_plus.
  change (inject_Z 1) with 1. lra.
Qed.

Lemma qsum_blocks (F : Z -> Q) (k n : nat) :
  (0 < k)%nat ->
  qsum (map (fun i => F (Z.of_nat i / Z.of_nat k)%Z) (seq 0 (n * k))) ==
  qz (Z.of_nat k) * qsum (map (fun h => F (Z.of_nat h)) (seq 0 n)).
Proof.
  intro Hk. induction n as [|n IH].
  - cbn [Nat.mul seq map qsum]. lra.
  - replace (S n * k)%nat with (n * k + k)%nat by lia. rewrite qsum_seq_app, IH.
    rewrite Nat.add_0_l. replace (S n) with (n + 1)%nat by lia. rewrite qsum_seq_app.
    cbn [seq map qsum]. rewrite Nat.add_0_l.
    rewrite (qsum_map_const (seq (n * k) k) _ (F (Z.of_nat n))).
    + rewrite seq_length. lra.
    + intros i Hi. apply in_seq in Hi.
      replace (Z.of_nat i / Z.of_nat k)%Z with (Z.of_nat n); [reflexivity|].
      apply (Z.div_unique _ _ _ (Z.of_nat i - Z.of_nat k * Z.of_nat n)); [left; nia|lia].
Qed.

Lemma qsum_nth (l : list Q) : qsum (map (fun h => nth h l 0) (seq 0 (length l))) == qsum l.
Proof.
  induction l as [|x l IH]; [reflexivity|].
  cbn [length seq map qsum nth]. rewrite <- seq_shift, map_map. cbn [nth]. rewrite IH. reflexivity.
Qed.

Lemma steps_succ s n : steps s (S n) = s :: steps (s + 1) n.
Proof.
  unfold steps. cbn [seq map]. f_equal; [lia|]. rewrite <- seq_shift, map_map.
  apply map_ext. intro i. lia.
Qed.

Lemma steps_last s n : steps s (S n) = steps s n ++ [(s + Z.of_nat n)%Z].
Proof. unfold steps. rewrite seq_S, map_app. reflexivity. Qed.

Lemma window_shift (f : Z -> Q) n s :
  (forall t, f (t + Z.of_nat n)%Z == f t) ->
  qsum (map f (steps (s + 1) n)) == qsum (map f (steps s n)).
Proof.
  intro P.
  assert (A : qsum (map f (steps s (S n))) == f s + qsum (map f (steps (s + 1) n))).
  { rewrite steps_succ. reflexivity. }
  assert (B : qsum (map f (steps s (S n))) == qsum (map f (steps s n)) + f s).
  { rewrite steps_last, map_app, qsum_app. cbn [map qsum]. rewrite P. lra. }
  lra.
Qed.

Lemma window_any (f : Z -> Q) n s :
  (forall t, f (t + Z.of_nat n)%Z == f t) ->
  qsum (map f (steps s n)) == qsum (map f (steps 0 n)).
Proof.
  intro P.
  assert (UP : forall k : nat, qsum (map f (steps (Z.of_nat k) n)) == qsum (map f (steps 0 n))).
  { induction k as [|k IH]; [reflexivity|].
    rewrite Nat2Z.inj_succ. unfold Z.succ. rewrite window_shift by exact P. exact IH. }
  assert (DN : forall k : nat, qsum (map f (steps (- Z.of_nat k) n)) == qsum (map f (steps 0 n))).
  { induction k as [|k IH]; [reflexivity|].
    rewrite <- IH. replace (- Z.of_nat k)%Z with (- Z.of_nat (S k) + 1)%Z by lia.
    rewrite window_shift by exact P. reflexivity. }
  destruct (Z_lt_le_dec s 0).
  - replace s with (- Z.of_nat (Z.to_nat (- s)))%Z by lia. apply DN.
  - replace s with (Z.of_nat (Z.to_nat s)) by lia. apply UP.
Qed.

(** Step [t] of an hour split into [k] steps of [iv] minutes lies in hour [t / k]. *)
Lemma step_hour iv k t : (0 < k)%Z -> (iv * k = 60)%Z -> (t * iv / 60 = t / k)%Z.
Proof.
  intros Hk E. rewrite <- E. assert (iv <> 0)%Z by nia.
  rewrite (Z.mul_comm iv k). apply Z.div_mul_cancel_r; lia.
Qed.

Lemma load_periodic b u iv k t :
  (0 < k)%Z -> (iv * k = 60)%Z -> shape_of b u <> [] ->
  load_at b u iv (t + Z.of_nat (length (shape_of b u)) * k) = load_at b u iv t.
Proof.
  intros Hk E N. unfold load_at. cbv zeta.
  set (n := Z.of_nat (length (shape_of b u))).
  assert (0 < n)%Z by (subst n; destruct (shape_of b u); [congruence|cbn [length]; lia]).
  do 3 f_equal. rewrite !(step_hour iv k) by auto.
  rewrite Z.div_add by lia.
  replace (t / k + n)%Z with (t / k + 1 * n)%Z by lia. rewrite Z.mod_add by lia. reflexivity.
Qed.

(** C01: any window of one full cycle. *)
Lemma c01_cycle b u iv k s :
  (0 < k)%Z -> (iv * k = 60)%Z -> shape_of b u <> [] ->
  let n := length (shape_of b u) in
  qsum (map (load_at b u iv) (steps s (n * Z.to_nat k))) == bd_daily b * qsum (shape_of b u).
Proof.
  intros Hk E N n.
  assert (Hn : (0 < Z.of_nat n)%Z) by (subst n; destruct (shape_of b u); [congruence|cbn [length]; lia]).
  rewrite window_any.
  2:{ intro t. rewrite Nat2Z.inj_mul, Z2Nat.id by lia. rewrite load_periodic by auto. reflexivity. }
  unfold steps. rewrite map_map.
  set (F := fun q : Z => bd_daily b * nth (Z.to_nat (q mod Z.of_nat n)) (shape_of b u) 0 * qz iv / 60).
  rewrite (qsum_map_ext _ (fun i => F (Z.of_nat i / Z.of_nat (Z.to_nat k))%Z)).
  2:{ intros i _. unfold load_at, F. cbv zeta. fold n. rewrite Z2Nat.id by lia.
      rewrite (step_hour iv k) by auto. rewrite Z.add_0_l. reflexivity. }
  rewrite qsum_blocks by lia. rewrite Z2Nat.id by lia.
  rewrite (qsum_map_ext _ (fun h => (bd_daily b * qz iv / 60) * nth h (shape_of b u) 0)).
  2:{ intros h Hh. apply in_seq in Hh. unfold F. rewrite Z.mod_small by lia. rewrite Nat2Z.id. field. }
  rewrite qsum_map_scale. unfold n. rewrite qsum_nth.
  assert (EQ : qz iv * qz k == 60).
  { unfold qz. rewrite <- inject_Z_mult, E. reflexivity. }
  set (D := bd_daily b * qsum (shape_of b u)).
  assert (G : qz k * (bd_daily b * qz iv / 60 * qsum (shape_of b u)) == (qz iv * qz k) / 60 * D).
  { unfold D. field. }
  rewrite G, EQ. field.
Qed.

(** ** Validation *)

Lemma validate_iff l : validate_load_shape l = Ok tt <-> valid_shape l.
Proof.
  unfold validate_load_shape, valid_shape.
  destruct (Nat.eqb (length l) 24) eqn:E1; cbn [negb].
  2:{ apply Nat.eqb_neq in E1. split; [discriminate|]. intros [H _]. congruence. }
  apply Nat.eqb_eq in E1.
  destruct (qltb (1 # 1000) (Qabs (qsum l - 1))) eqn:E2; qbool.
  { split; [discriminate|]. intros (_ & H & _). exfalso. lra. }
  destruct (existsb (fun x => qltb x 0) l) eqn:E3.
  - split; [discriminate|]. intros (_ & _ & H). exfalso.
    apply existsb_exists in E3. destruct E3 as (x & Hx & L). qbool. specialize (H x Hx). lra.
  - split; [|reflexivity]. intros _. split; [exact E1|]. split; [exact E2|].
    intros x Hx. destruct (Qlt_le_dec x 0) as [L|L]; [|exact L].
    exfalso. assert (existsb (fun x => qltb x 0) l = true).
    { apply existsb_exists. exists x. split; [exact Hx|]. apply qltb_true. exact L. }
    congruence.
Qed.

Lemma validate_tt l u : validate_load_shape l = Ok u -> valid_shape l.
Proof. destruct u. apply validate_iff. Qed.

Lemma validate_err l : ~ valid_shape l -> validate_load_shape l = Err ValueError.
Proof.
  intro N. destruct (validate_load_shape l) as [[]|e] eqn:E; [apply validate_iff in E; tauto|].
  revert E. unfold validate_load_shape.
  repeat match goal with |- context [if ?b then _ else _] => destruct b end; congruence.
Qed.

Lemma c03_named lib t m cp ca gp std br g p a :
  compute_single lib (Some t) m cp ca gp std br = Ok (g, p, a) ->
  (forall raw, cp = Some raw -> p = raw /\ valid_shape raw) /\
  (forall raw, ca = Some raw -> a = raw /\ valid_shape raw).
Proof.
  unfold compute_single. destruct m as [m|]; [|discriminate].
  destruct (Qle_bool m 0); [discriminate|]. intro H.
  destruct (bind_ok _ _ _ H) as (g' & _ & H1). destruct (bind_ok _ _ _ H1) as (p' & Hp & H2).
  destruct (bind_ok _ _ _ H2) as (a' & Ha & H3). inversion H3; subst.
  split; intros raw ->.
  - destruct (bind_ok _ _ _ Hp) as (u & V & E). inversion E; subst. split; [reflexivity|].
    eapply validate_tt; eauto.
  - destruct (bind_ok _ _ _ Ha) as (u & V & E). inversion E; subst. split; [reflexivity|].
    eapply validate_tt; eauto.
Qed.

Lemma c03_named_rejects lib t m cp ca gp std br raw :
  (cp = Some raw \/ ca = Some raw) -> ~ valid_shape raw ->
  exists e, compute_single lib (Some t) m cp ca gp std br = Err e.
Proof.
  intros H N. destruct (compute_single lib (Some t) m cp ca gp std br) as [[[g p] a]|e] eqn:E; [|eauto].
  destruct (c03_named _ _ _ _ _ _ _ _ _ _ _ E) as [A B]. exfalso. apply N.
  destruct H as [-> | ->]; [apply A|apply B]; reflexivity.
Qed.

Lemma mapM_length {A B} (f : A -> res B) l r : mapM f l = Ok r -> length r = length l.
Proof.
  revert r. induction l as [|x l IH]; intros r H; cbn [mapM] in H; [inversion H; reflexivity|].
  destruct (bind_ok _ _ _ H) as (y & _ & H1). destruct (bind_ok _ _ _ H1) as (ys & E & H2).
  inversion H2; subst. cbn [length]. f_equal. apply IH. exact E.
Qed.

Lemma mapM_nth {A B} (f : A -> res B) l r i x :
  mapM f l = Ok r -> nth_error l i = Some x -> exists y, nth_error r i = Some y /\ f x = Ok y.
Proof.
  revert r i. induction l as [|a l IH]; intros r i H E; [destruct i; discriminate|].
  cbn [mapM] in H. destruct (bind_ok _ _ _ H) as (y & Fy & H1).
  destruct (bind_ok _ _ _ H1) as (ys & Em & H2). inversion H2; subst.
  destruct i as [|i]; cbn [nth_error] in *.
  - inversion E; subst. eauto.
  - eauto.
Qed.

Lemma div_all_inv l s r :
  div_all l s = Ok r -> l = [] \/ (~ s == 0 /\ r = map (fun x => x / s) l).
Proof.
  unfold div_all. revert r. induction l as [|x l IH]; intros r H; [auto|]. right.
  cbn [mapM] in H. destruct (bind_ok _ _ _ H) as (y & Fy & H1).
  destruct (bind_ok _ _ _ H1) as (ys & Em & H2). inversion H2; subst.
  destruct (qdiv_inv _ _ _ Fy) as [N ->]. split; [exact N|]. cbn [map]. f_equal.
  destruct (IH ys Em) as [->|[_ ->]]; [|reflexivity]. cbn in Em. inversion Em. reflexivity.
Qed.

Lemma div_all_sum l s r : div_all l s = Ok r -> l <> [] -> qsum r * s == qsum l /\ ~ s == 0.
Proof.
  intros H N. destruct (div_all_inv _ _ _ H) as [->|[S ->]]; [congruence|]. split; [|exact S].
  clear H N. induction l as [|x l IH]; cbn [map qsum]; [lra|].
  assert (E : x / s * s == x) by (field; exact S). nra.
Qed.

(** A shape-only building: what is stored is normalised (exactly, or it was valid as given). *)
Lemma c03_custom lib m raw ca gp std br g p a :
  raw <> [] ->
  compute_single lib None m (Some raw) ca gp std br = Ok (g, p, a) ->
  (m = None -> g = qsum raw) /\ (forall x, m = Some x -> g = x) /\
  Qabs (qsum p - 1) <= 1 # 1000 /\ length p = length raw /\
  (forall ra, ca = Some ra -> valid_shape a).
Proof.
  intros N H. unfold compute_single in H.
  destruct (bind_ok _ _ _ H) as ([g' p'] & Hp & H2). clear H.
  assert (K : g' = g /\ p' = p /\ (forall ra, ca = Some ra -> valid_shape a)).
  { destruct ca as [ra|].
    - destruct (bind_ok _ _ _ H2) as (a' & Ea & H3). destruct (bind_ok _ _ _ H3) as (u & V & H4).
      inversion H4; subst. split; [reflexivity|]. split; [reflexivity|].
      intros; eapply validate_tt; eauto.
    - inversion H2; subst. split; [reflexivity|]. split; [reflexivity|]. discriminate. }
  destruct K as (-> & -> & K).
  assert (Norm : forall q, div_all raw (qsum raw) = Ok q -> Qabs (qsum q - 1) <= 1 # 1000 /\ length q = length raw).
  { intros q E. destruct (div_all_sum _ _ _ E N) as [S NZ]. split.
    - assert (E1 : qsum q - 1 == 0).
      { assert (qsum q == 1). { apply (Qmult_inj_r _ _ (qsum raw) NZ). lra. } lra. }
      rewrite E1. vm_compute. discriminate.
    - unfold div_all in E. apply mapM_length in E. exact E. }
  destruct m as [m|].
  - destruct (qltb (1 # 1000) (Qabs (qsum raw - 1))) eqn:B; qbool.
    + destruct (bind_ok _ _ _ Hp) as (q & E & E2). inversion E2; subst. destruct (Norm _ E) as [A1 A2].
      split; [discriminate|]. split; [intros x Ex; inversion Ex; reflexivity|]. auto.
    + destruct (bind_ok _ _ _ Hp) as (u & E & E2). inversion E2; subst.
      split; [discriminate|]. split; [intros x Ex; inversion Ex; reflexivity|]. auto.
  - destruct (bind_ok _ _ _ Hp) as (q & E & E2). inversion E2; subst. destruct (Norm _ E) as [A1 A2].
    split; [reflexivity|]. split; [discriminate|]. auto.
Qed.

(** ** Mixed use *)

Lemma vadd_ok a b r : vadd a b = Ok r ->
  length a = length b /\ length r = length a /\ forall h, nth h r 0 == nth h a 0 + nth h b 0.
Proof.
  revert b r. induction a as [|x a IH]; intros [|y b] r H; cbn [vadd] in H; try discriminate.
  - inversion H; subst. repeat split; auto. intros [|h]; cbn; lra.
  - destruct (bind_ok _ _ _ H) as (r' & E & H1). inversion H1; subst.
    destruct (IH b r' E) as (L1 & L2 & K). cbn [length]. split; [congruence|]. split; [congruence|].
    intros [|h]; cbn [nth]; [reflexivity|apply K].
Qed.

Lemma nth_map_scale g s h : nth h (map (fun x => g * x) s) 0 == g * nth h s 0.
Proof.
  revert h. induction s as [|x s IH]; intros [|h]; cbn [map nth]; try lra. apply IH.
Qed.

Lemma blend_sum_ok l v : blend_sum l = Ok v ->
  (forall g s, In (g, s) l -> length s = length v) /\
  forall h, nth h v 0 == qsum (map (fun p => fst p * nth h (snd p) 0) l).
Proof.
  revert v. induction l as [|[g s] r IH]; intros v H; [discriminate|].
  destruct r as [|p r].
  - cbn [blend_sum] in H. inversion H; subst. split.
    + intros g' s' [E|[]]. inversion E; subst. rewrite map_length. reflexivity.
    + intro h. rewrite nth_map_scale. cbn [map qsum fst snd]. lra.
  - cbn [blend_sum] in H. destruct (bind_ok _ _ _ H) as (t & Et & H1). clear H.
    destruct (IH t Et) as [L K]. destruct (vadd_ok _ _ _ H1) as (L1 & L2 & K1).
    rewrite map_length in L1, L2. split.
    + intros g' s' [E|Hin]; [inversion E; subst; congruence|].
      rewrite (L g' s' Hin). congruence.
    + intro h. rewrite K1, K, nth_map_scale. cbn [map qsum fst snd]. reflexivity.
Qed.

Lemma compute_all_nth lib gp std br : forall tys ms cps cas subs,
  compute_all lib tys ms cps cas gp std br = Ok subs ->
  length ms = length tys -> length cps = length tys -> length cas = length tys ->
  length subs = length tys /\
  forall i ty m cp ca, nth_error tys i = Some ty -> nth_error ms i = Some m ->
    nth_error cps i = Some cp -> nth_error cas i = Some ca ->
    exists x, nth_error subs i = Some x /\ compute_single lib ty m cp ca gp std br = Ok x.
Proof.
  induction tys as [|ty tys IH]; intros [|m ms] [|cp cps] [|ca cas] subs H L1 L2 L3;
    cbn [compute_all length] in *; try discriminate.
  - inversion H; subst. split; [reflexivity|]. intros [|i]; discriminate.
  - destruct (bind_ok _ _ _ H) as (x & Ex & H1). destruct (bind_ok _ _ _ H1) as (r & Er & H2).
    inversion H2; subst. destruct (IH ms cps cas r Er) as [L K]; try lia.
    split; [cbn [length]; congruence|].
    intros [|i] ty' m' cp' ca' E1 E2 E3 E4; cbn [nth_error] in *.
    + inversion E1; inversion E2; inversion E3; inversion E4; subst. eauto.
    + eauto.
Qed.

Lemma normalize_at c n l i :
  normalize_shapes c n = Ok l -> (i < n)%nat -> length l = n /\ nth_error l i = custom_at c i.
Proof.
  unfold normalize_shapes, custom_at. destruct c as [[x|x]|].
  - match goal with |- (if ?b then _ else _) = _ -> _ => destruct b; discriminate end.
  - destruct (Nat.eqb (length x) n) eqn:E; cbn [negb]; [|discriminate].
    apply Nat.eqb_eq in E. intros H _; inversion H; subst. auto.
  - intros H Hi. inversion H; subst. split; [apply repeat_length|].
    rewrite (nth_error_nth' (repeat None n) None) by (rewrite repeat_length; exact Hi).
    f_equal. apply nth_repeat.
Qed.

Lemma normalize_length c n l : normalize_shapes c n = Ok l -> length l = n.
Proof.
  unfold normalize_shapes. destruct c as [[x|x]|].
  - match goal with |- (if ?b then _ else _) = _ -> _ => destruct b; discriminate end.
  - destruct (Nat.eqb (length x) n) eqn:E; cbn [negb]; [|discriminate].
    apply Nat.eqb_eq in E. intros H; inversion H; subst. auto.
  - intros H. inversion H; subst. apply repeat_length.
Qed.

Lemma multi_inv lib tys ms cz cps cas gp std br doat din b :
  from_multi_use lib tys (Many ms) cz cps cas gp std br doat din = Ok b ->
  exists cpl cal subs sp sa,
    length ms = length tys /\
    normalize_shapes cps (length tys) = Ok cpl /\ normalize_shapes cas (length tys) = Ok cal /\
    compute_all lib tys ms cpl cal gp std br = Ok subs /\ subs <> [] /\
    blend_sum (map (fun x => (fst (fst x), snd (fst x))) subs) = Ok sp /\
    blend_sum (map (fun x => (fst (fst x), snd x)) subs) = Ok sa /\
    div_all sp (bd_daily b) = Ok (bd_peak b) /\ div_all sa (bd_daily b) = Ok (bd_avg b) /\
    bd_daily b = qsum (map (fun x => fst (fst x)) subs) /\ bd_type b = "multi_use"%string /\
    bd_climate b = bd_climate (bd_new cz 0 [] [] "" doat din).
Proof.
  unfold from_multi_use. cbv zeta.
  destruct (Nat.eqb (length ms) (length tys)) eqn:E0; cbn [negb]; [|discriminate].
  apply Nat.eqb_eq in E0. intro H.
  destruct (bind_ok _ _ _ H) as (cpl & E1 & H1). destruct (bind_ok _ _ _ H1) as (cal & E2 & H2).
  destruct (bind_ok _ _ _ H2) as (subs & E3 & H3). clear H H1 H2.
  destruct subs as [|x subs]; [discriminate|].
  destruct (bind_ok _ _ _ H3) as (sp & E4 & H4). destruct (bind_ok _ _ _ H4) as (bp & E5 & H5).
  destruct (bind_ok _ _ _ H5) as (sa & E6 & H6). destruct (bind_ok _ _ _ H6) as (ba & E7 & H7).
  inversion H7; subst. exists cpl, cal, (x :: subs), sp, sa.
  unfold bd_new. cbn [bd_daily bd_peak bd_avg bd_type bd_climate].
  split; [exact E0|]. split; [exact E1|]. split; [exact E2|]. split; [exact E3|].
  split; [discriminate|]. split; [exact E4|]. split; [exact E6|]. split; [exact E5|].
  split; [exact E7|]. split; [reflexivity|]. split; reflexivity.
Qed.

(** The building each entry would be on its own. *)
Definition sub_building (cz : option climate) (ty : option string) (x : Q * list Q * list Q)
  (doat din : option Q) : building :=
  bd_new cz (fst (fst x)) (snd (fst x)) (snd x)
    (match ty with Some s => s | None => "custom"%string end) doat din.

Lemma single_is_sub lib ty m cp ca cz gp std br doat din x :
  compute_single lib ty m cp ca gp std br = Ok x ->
  from_building_type lib (One ty) (One m) cz gp std br (as_single cp) (as_single ca) false doat din
    = Ok (sub_building cz ty x doat din).
Proof.
  intro E. unfold from_building_type. cbv zeta.
  destruct cp as [cp|], ca as [ca|]; cbn [as_single bind]; rewrite E; cbn [bind];
    destruct x as [[g p] a]; reflexivity.
Qed.

Lemma sub_shape cz ty x doat din u :
  shape_of (sub_building cz ty x doat din) u = if u then snd x else snd (fst x).
Proof. unfold sub_building, bd_new, shape_of. destruct u; reflexivity. Qed.
Lemma sub_daily cz ty x doat din : bd_daily (sub_building cz ty x doat din) = fst (fst x).
Proof. reflexivity. Qed.

(** Blended load = sum of loads. *)
Lemma blended_load (D : Q) (l : list (Q * list Q)) v w h :
  blend_sum l = Ok v -> div_all v D = Ok w -> v <> [] ->
  (~ D == 0) /\ length w = length v /\ D * nth h w 0 == qsum (map (fun p => fst p * nth h (snd p) 0) l).
Proof.
  intros B Dv N. destruct (blend_sum_ok l v B) as [_ K]. destruct (div_all_inv _ _ _ Dv) as [->|[NZ ->]]; [congruence|].
  split; [exact NZ|]. split; [apply map_length|].
  rewrite <- K. clear K B Dv N. revert h. induction v as [|x v IH]; intros [|h]; cbn [map nth].
  - lra.
  - lra.
  - field. exact NZ.
  - apply IH.
Qed.

Lemma combine_map_r {A B} (f : A -> B) (l : list A) : combine l (map f l) = map (fun x => (x, f x)) l.
Proof. induction l as [|x l IH]; cbn; congruence. Qed.

Lemma c04_core lib tys ms cz cps cas gp std br doat din b :
  from_multi_use lib tys (Many ms) cz cps cas gp std br doat din = Ok b ->
  exists subs,
    length subs = length tys /\
    (forall i ty m cp ca, nth_error tys i = Some ty -> nth_error ms i = Some m ->
       custom_at cps i = Some cp -> custom_at cas i = Some ca ->
       exists s, nth_error subs i = Some s /\
         from_building_type lib (One ty) (One m) cz gp std br (as_single cp) (as_single ca) false doat din
           = Ok s) /\
    bd_daily b == qsum (map bd_daily subs) /\
    (forall t iv u x, bd_load b t iv u = Ok x ->
       exists xs, Forall2 (fun s y => bd_load s t iv u = Ok y) subs xs /\ x == qsum xs) /\
    (forall u, shape_of b u <> [] -> (forall s, In s subs -> qsum (shape_of s u) == 1) ->
       qsum (shape_of b u) == 1).
Proof.
  intro H. destruct (multi_inv _ _ _ _ _ _ _ _ _ _ _ _ H)
    as (cpl & cal & subs & sp & sa & L0 & N1 & N2 & CA & NE & Bp & Ba & Dp & Da & Dd & Ty & _).
  pose proof (normalize_length _ _ _ N1) as LP. pose proof (normalize_length _ _ _ N2) as LA.
  destruct (compute_all_nth _ _ _ _ _ _ _ _ _ CA L0 LP LA) as [LS NTH].
  set (sub := fun p : option string * (Q * list Q * list Q) => sub_building cz (fst p) (snd p) doat din).
  set (BS := map sub (combine tys subs)).
  assert (LBS : length BS = length tys).
  { unfold BS. rewrite map_length, combine_length, LS. apply Nat.min_id. }
  assert (SNDS : forall (F : Q * list Q * list Q -> Q) (G : building -> Q),
     (forall ty x, G (sub_building cz ty x doat din) == F x) ->
     qsum (map G BS) == qsum (map F subs)).
  { intros F G HG. unfold BS. rewrite map_map.
    clear - LS HG. revert subs LS. induction tys as [|ty tys IH]; intros [|x subs] LS; cbn [length] in LS; try discriminate.
    - reflexivity.
    - cbn [combine map qsum fst snd]. unfold sub at 1. cbn [fst snd]. rewrite HG, IH by lia. reflexivity. }
  exists BS. split; [exact LBS|]. split; [|split; [|split]].
  - intros i ty m cp ca E1 E2 E3 E4.
    assert (Hi : (i < length tys)%nat) by (apply nth_error_Some; congruence).
    destruct (normalize_at _ _ _ _ N1 Hi) as [_ X1]. destruct (normalize_at _ _ _ _ N2 Hi) as [_ X2].
    destruct (NTH i ty m cp ca E1 E2) as (x & Ex & Cx); [congruence|congruence|].
    exists (sub_building cz ty x doat din). split.
    + unfold BS. change (sub_building cz ty x doat din) with (sub (ty, x)). apply map_nth_error.
      clear - E1 Ex. revert i subs E1 Ex. induction tys as [|t tys IH]; intros [|i] [|y subs] E1 Ex;
        cbn [nth_error combine] in *; try discriminate.
      * congruence.
      * apply IH; auto.
    + apply single_is_sub. exact Cx.
  - rewrite Dd. symmetry. apply SNDS. intros. rewrite sub_daily. reflexivity.
  - intros t iv u x Hx. destruct (bd_load_inv _ _ _ _ _ Hx) as [NS ->].
    (* the blend for the selected shape *)
    set (sel := fun x : Q * list Q * list Q => if u then snd x else snd (fst x)).
    assert (SEL : exists v, blend_sum (map (fun x => (fst (fst x), sel x)) subs) = Ok v /\
                            div_all v (bd_daily b) = Ok (shape_of b u)).
    { unfold sel, shape_of. destruct u; [exists sa|exists sp]; auto. }
    destruct SEL as (v & Bv & Dv).
    assert (Nv : v <> []).
    { intros ->. cbn in Dv. inversion Dv as [E]. apply NS. symmetry. exact E. }
    destruct (blend_sum_ok _ _ Bv) as [LEN _].
    set (n := length (shape_of b u)).
    assert (Ln : length v = n).
    { unfold n. destruct (blended_load _ _ _ _ 0%nat Bv Dv Nv) as (_ & L & _). congruence. }
    assert (LEN2 : forall s, In s BS -> length (shape_of s u) = n).
    { intros s Hs. unfold BS in Hs. apply in_map_iff in Hs. destruct Hs as ([ty y] & <- & Hp).
      apply in_combine_r in Hp. unfold sub. cbn [fst snd]. rewrite sub_shape. rewrite <- Ln.
      apply (LEN (fst (fst y))). apply in_map_iff. exists y. split; [reflexivity|exact Hp]. }
    assert (Nn : n <> 0%nat) by (unfold n; destruct (shape_of b u); [congruence|discriminate]).
    exists (map (fun s => load_at s u iv t) BS). split.
    + assert (ALL : forall l, (forall s, In s l -> In s BS) ->
                      Forall2 (fun s y => bd_load s t iv u = Ok y) l (map (fun s => load_at s u iv t) l)).
      { induction l as [|s l IH]; intro Hl; cbn [map]; constructor.
        - apply bd_load_ok. intro C. pose proof (LEN2 s (Hl s (or_introl eq_refl))) as L.
          rewrite C in L. cbn in L. lia.
        - apply IH. intros z Hz. apply Hl. right. exact Hz. }
      apply ALL. auto.
    + set (h := Z.to_nat (((t * iv) / 60) mod Z.of_nat n)).
      assert (EB : load_at b u iv t == (bd_daily b * nth h (shape_of b u) 0) * (qz iv / 60)).
      { unfold load_at. cbv zeta. fold n. fold h. field. }
      rewrite EB.
      destruct (blended_load _ _ _ _ h Bv Dv Nv) as (_ & _ & ->).
      rewrite map_map. cbn [fst snd].
      rewrite (qsum_map_ext (fun s => load_at s u iv t) (fun s => (qz iv / 60) * (bd_daily s * nth h (shape_of s u) 0))).
      2:{ intros s Hs. unfold load_at. cbv zeta. rewrite (LEN2 s Hs). fold h. field. }
      rewrite qsum_map_scale.
      rewrite (SNDS (fun x => fst (fst x) * nth h (sel x) 0)).
      2:{ intros ty y. rewrite sub_daily, sub_shape. reflexivity. }
      lra.
  - intros u NS ONE.
    set (sel := fun x : Q * list Q * list Q => if u then snd x else snd (fst x)).
    assert (SEL : exists v, blend_sum (map (fun x => (fst (fst x), sel x)) subs) = Ok v /\
                            div_all v (bd_daily b) = Ok (shape_of b u)).
    { unfold sel, shape_of. destruct u; [exists sa|exists sp]; auto. }
    destruct SEL as (v & Bv & Dv).
    assert (Nv : v <> []).
    { intros ->. cbn in Dv. inversion Dv as [E]. apply NS. symmetry. exact E. }
    destruct (div_all_sum _ _ _ Dv Nv) as [S NZ].
    destruct (blend_sum_ok _ _ Bv) as [LEN K].
    assert (SV : qsum v == bd_daily b).
    { rewrite <- qsum_nth.
      rewrite (qsum_map_ext _ (fun h => qsum (map (fun p => fst p * nth h (snd p) 0)
                 (map (fun x => (fst (fst x), sel x)) subs)))) by (intros; apply K).
      rewrite Dd.
      assert (ONE2 : forall y, In y subs -> qsum (sel y) == 1).
      { intros y Hy. destruct (In_nth_error _ _ Hy) as (i & Ei).
        assert (Hi : (i < length tys)%nat) by (rewrite <- LS; apply nth_error_Some; congruence).
        destruct (nth_error tys i) as [ty|] eqn:Et; [|apply nth_error_None in Et; lia].
        pose proof (ONE (sub (ty, y))) as O. unfold sub in O at 2. cbn [fst snd] in O.
        rewrite sub_shape in O. apply O. unfold BS. apply in_map.
        clear - Ei Et. revert i subs Ei Et. induction tys as [|t tys IH]; intros [|i] [|z subs] Ei Et;
          cbn [nth_error combine] in *; try discriminate.
        - left. congruence.
        - right. eapply IH; eauto. }
      assert (LEN3 : forall y, In y subs -> length (sel y) = length v).
      { intros y Hy. apply (LEN (fst (fst y))). apply in_map_iff. exists y. auto. }
      clear - ONE2 LEN3. set (n := length v) in *. clearbody n.
      induction subs as [|y subs IH].
      - cbn [map qsum]. rewrite (qsum_map_const (seq 0 n) (fun _ => 0) 0); [|reflexivity].
        lra.
      - cbn [map qsum fst snd].
        rewrite (qsum_map_add (fun h => fst (fst y) * nth h (sel y) 0)
                   (fun h => qsum (map (fun p => fst p * nth h (snd p) 0) (map (fun x => (fst (fst x), sel x)) subs)))).
        rewrite IH; [|intros; apply ONE2; right; auto|intros; apply LEN3; right; auto].
        rewrite (qsum_map_scale (fst (fst y)) (fun h => nth h (sel y) 0)).
        rewrite <- (LEN3 y (or_introl eq_refl)), qsum_nth, (ONE2 y (or_introl eq_refl)). lra. }
    apply (Qmult_inj_r _ _ (bd_daily b) NZ). lra.
Qed.

(** ** Annual and daily shapes *)

Lemma set_annual_inv lib b b' : bd_set_annual lib b = Ok b' ->
  bd_type b = "multi_family"%string /\ bd_type b' = bd_type b /\ bd_daily b' = bd_daily b /\
  bd_climate b' = bd_climate b /\
  exists f a, lib_file lib "multi_family"%string = Some f /\ sf_annual f = Some a /\
    bd_peak b' = a /\ bd_avg b' = a.
Proof.
  unfold bd_set_annual. destruct (String.eqb (bd_type b) "multi_family") eqn:E; cbn [negb]; [|discriminate].
  apply String.eqb_eq in E. unfold load_file.
  destruct (lib_file lib "multi_family"%string) as [f|] eqn:F; [|discriminate].
  cbn [bind]. destruct (sf_annual f) as [a|] eqn:A; [|discriminate].
  intro H. inversion H; subst. cbn. split; [exact E|]. repeat split. eauto 6.
Qed.

Lemma set_daily_inv lib b b' : bd_set_daily lib b = Ok b' ->
  bd_type b = "multi_family"%string /\ bd_type b' = bd_type b /\ bd_daily b' = bd_daily b /\
  bd_climate b' = bd_climate b /\
  exists f a, lib_file lib "multi_family"%string = Some f /\ sf_stream_avg f = Some a /\
    bd_peak b' = sf_stream f /\ bd_avg b' = a.
Proof.
  unfold bd_set_daily. destruct (String.eqb (bd_type b) "multi_family") eqn:E; cbn [negb]; [|discriminate].
  apply String.eqb_eq in E. unfold load_file.
  destruct (lib_file lib "multi_family"%string) as [f|] eqn:F; [|discriminate].
  cbn [bind]. destruct (sf_stream_avg f) as [a|] eqn:A; [|discriminate].
  intro H. inversion H; subst. cbn. split; [exact E|]. repeat split. eauto 6.
Qed.

(** ** Weather *)

Lemma c06_oat c l t iv h :
  cz_const_oat c = None -> cz_oat c = Some l -> l <> [] ->
  in_hour (Z.of_nat (length l)) iv t h ->
  exists x, nth_error l (Z.to_nat h) = Some x /\ cz_get_oat c t iv = Ok x.
Proof.
  intros E1 E2 N H. unfold cz_get_oat. rewrite E1, E2. cbv zeta.
  assert (L : (0 < Z.of_nat (length l))%Z) by (destruct l; [congruence|cbn [length]; lia]).
  destruct (Z.of_nat (length l) =? 0)%Z eqn:E; [apply Z.eqb_eq in E; lia|].
  rewrite (hour_unique _ _ _ _ L H). destruct H as [Hh _].
  destruct (nth_error l (Z.to_nat h)) as [x|] eqn:X; [|apply nth_error_None in X; lia].
  exists x. split; [reflexivity|]. apply py_nth_nonneg; [lia|exact X].
Qed.

Lemma month_scan_le d k m :
  month_scan d k = m -> (k <= 12)%nat -> (0 <= d)%Z ->
  (0 < k)%nat -> (0 <= m)%Z /\ (Z.to_nat m < k)%nat /\ (nth (Z.to_nat m) month_start_day 0 <= d)%Z /\
  (forall j, (Z.to_nat m < j)%nat -> (j < k)%nat -> (d < nth j month_start_day 0)%Z).
Proof.
  revert m. induction k as [|k IH]; intros m H K D P; [lia|].
  cbn [month_scan] in H. destruct (nth k month_start_day 0 <=? d)%Z eqn:E.
  - apply Z.leb_le in E. subst m. rewrite Nat2Z.id. repeat split; try lia; try exact E; try (intros; lia).
  - apply Z.leb_gt in E. destruct k as [|k].
    + cbn in E. lia.
    + destruct (IH m H ltac:(lia) D ltac:(lia)) as (A & B & C & F). repeat split; auto; try lia.
      intros j J1 J2. destruct (Nat.eq_dec j (S k)) as [->|]; [exact E|apply F; lia].
Qed.

Lemma month_start_sum m : (m < 12)%nat ->
  nth m month_start_day 0%Z = fold_right Z.add 0%Z (firstn m days_in_month).
Proof. intro H. do 12 (destruct m as [|m]; [reflexivity|]). lia. Qed.

Lemma year_sum m : (m < 12)%nat ->
  fold_right Z.add 0%Z (firstn (S m) days_in_month) =
  if Nat.eqb m 11 then 365%Z else nth (S m) month_start_day 0%Z.
Proof. intro H. do 12 (destruct m as [|m]; [reflexivity|]). lia. Qed.

Lemma in_month_month d : (0 <= d < 365)%Z ->
  in_month d (Z.to_nat (day_of_year_to_month d)).
Proof.
  intro D. unfold day_of_year_to_month.
  destruct (month_scan_le d 12 _ eq_refl ltac:(lia) ltac:(lia) ltac:(lia)) as (A & B & C & F).
  set (m := month_scan d 12) in *. split; [exact B|].
  rewrite <- month_start_sum by exact B. split; [exact C|].
  rewrite year_sum by exact B. destruct (Nat.eqb (Z.to_nat m) 11) eqn:E; [lia|].
  apply Nat.eqb_neq in E. apply F; lia.
Qed.

Lemma in_month_unique d m m' : in_month d m -> in_month d m' -> m = m'.
Proof.
  intros [A B] [A' B']. rewrite year_sum in B, B' by assumption.
  rewrite <- month_start_sum in B, B' by assumption.
  do 12 (destruct m as [|m]; [do 12 (destruct m' as [|m']; [try reflexivity; cbn in *; lia|]); lia|]).
  lia.
Qed.

Lemma day_unique iv t d : on_day iv t d -> ((t * iv / (60 * 24)) mod 365)%Z = d.
Proof.
  intros [Hd [y Hy]].
  assert (E : (t * iv / (60 * 24) = 365 * y + d)%Z).
  { symmetry. apply (Z.div_unique _ _ _ (t * iv - 1440 * (365 * y + d))); [left; lia|lia]. }
  rewrite E. replace (365 * y + d)%Z with (d + y * 365)%Z by lia.
  rewrite Z.mod_add by lia. apply Z.mod_small. lia.
Qed.

Lemma day_exists iv t : on_day iv t ((t * iv / (60 * 24)) mod 365).
Proof.
  split; [apply Z.mod_pos_bound; lia|].
  exists (t * iv / (60 * 24) / 365)%Z.
  rewrite <- (Z.div_mod (t * iv / (60 * 24)) 365) by lia.
  pose proof (Z.div_mod (t * iv) 1440 ltac:(lia)). pose proof (Z.mod_pos_bound (t * iv) 1440 ltac:(lia)).
  change (60 * 24)%Z with 1440%Z. lia.
Qed.

Lemma c06_inlet c l t iv d m :
  cz_const_inlet c = None -> cz_inlet c = Some l -> length l = 12%nat ->
  on_day iv t d -> in_month d m ->
  exists x, nth_error l m = Some x /\ cz_get_inlet c t iv = Ok x.
Proof.
  intros E1 E2 L D M. unfold cz_get_inlet. rewrite E1, E2, (day_unique iv t d D).
  pose proof (in_month_month d (proj1 D)) as M2.
  pose proof (in_month_unique _ _ _ M M2) as EM. subst m.
  destruct (nth_error l (Z.to_nat (day_of_year_to_month d))) as [x|] eqn:X.
  - exists x. split; [reflexivity|]. apply py_nth_nonneg; [|exact X].
    unfold day_of_year_to_month.
    destruct (month_scan_le d 12 _ eq_refl ltac:(lia) ltac:(destruct D; lia) ltac:(lia)) as (A & _). exact A.
  - apply nth_error_None in X. destruct M as [M _]. lia.
Qed.

Lemma c06_periodic c t t' iv k :
  (match cz_oat c with Some l => Z.of_nat (length l) = 8760%Z | None => True end) ->
  (t' * iv = t * iv + k * 525600)%Z ->
  cz_get_oat c t' iv = cz_get_oat c t iv /\ cz_get_inlet c t' iv = cz_get_inlet c t iv.
Proof.
  intros L E. split.
  - unfold cz_get_oat. destruct (cz_const_oat c); [reflexivity|].
    destruct (cz_oat c) as [l|]; [|reflexivity]. rewrite L. cbv zeta. rewrite E.
    replace (t * iv + k * 525600)%Z with (t * iv + (k * 8760) * 60)%Z by lia.
    rewrite Z.div_add by lia. rewrite Z.mod_add by lia. reflexivity.
  - unfold cz_get_inlet. destruct (cz_const_inlet c); [reflexivity|].
    destruct (cz_inlet c) as [l|]; [|reflexivity]. rewrite E. change (60 * 24)%Z with 1440%Z.
    replace (t * iv + k * 525600)%Z with (t * iv + (k * 365) * 1440)%Z by lia.
    rewrite Z.div_add by lia. rewrite Z.mod_add by lia. reflexivity.
Qed.

Lemma c07_oat c t iv x d : cz_get_oat c t iv = Ok x -> cz_design_oat c = Ok d -> d <= x.
Proof.
  unfold cz_get_oat, cz_design_oat. destruct (cz_const_oat c) as [k|].
  - intros H1 H2. inversion H1; inversion H2; subst. lra.
  - destruct (cz_oat c) as [l|]; [|discriminate]. cbv zeta.
    destruct (Z.of_nat (length l) =? 0)%Z; [discriminate|]. intros H1 H2.
    apply py_nth_in in H1. destruct l as [|a l]; [discriminate|]. cbn [py_min] in H2. inversion H2; subst.
    destruct (qminl_le a l) as [A B]. destruct H1 as [->|H1]; auto.
Qed.

Lemma c07_inlet c t iv x d : cz_get_inlet c t iv = Ok x -> cz_design_inlet c = Ok d -> d <= x.
Proof.
  unfold cz_get_inlet, cz_design_inlet. destruct (cz_const_inlet c) as [k|].
  - intros H1 H2. inversion H1; inversion H2; subst. lra.
  - destruct (cz_inlet c) as [l|]; [|discriminate]. intros H1 H2.
    apply py_nth_in in H1. destruct l as [|a l]; [discriminate|]. cbn [py_min] in H2. inversion H2; subst.
    destruct (qminl_le a l) as [A B]. destruct H1 as [->|H1]; auto.
Qed.

Lemma py_min_in l d : py_min l = Ok d -> In d l.
Proof.
  destruct l as [|a l]; [discriminate|]. cbn. intro H. inversion H; subst.
  destruct (qminl_in a l) as [->|]; auto.
Qed.

(** The design value is reached at some step. *)
Lemma c07_oat_attained c l d :
  cz_const_oat c = None -> cz_oat c = Some l -> cz_design_oat c = Ok d ->
  exists t, (0 <= t)%Z /\ cz_get_oat c t 60 = Ok d.
Proof.
  intros E1 E2 H. unfold cz_design_oat in H. rewrite E1, E2 in H.
  pose proof (py_min_in _ _ H) as I. destruct (In_nth_error _ _ I) as (i & Ei).
  assert (Hi : (i < length l)%nat) by (apply nth_error_Some; congruence).
  exists (Z.of_nat i). split; [lia|].
  destruct (c06_oat c l (Z.of_nat i) 60 (Z.of_nat i) E1 E2) as (x & X1 & X2).
  - intros ->. cbn in Hi. lia.
  - split; [lia|]. exists 0%Z. lia.
  - rewrite Nat2Z.id in X1. congruence.
Qed.

Lemma c07_inlet_attained c l d :
  cz_const_inlet c = None -> cz_inlet c = Some l -> length l = 12%nat -> cz_design_inlet c = Ok d ->
  exists t, (0 <= t)%Z /\ cz_get_inlet c t 1440 = Ok d.
Proof.
  intros E1 E2 L H. unfold cz_design_inlet in H. rewrite E1, E2 in H.
  pose proof (py_min_in _ _ H) as I. destruct (In_nth_error _ _ I) as (i & Ei).
  assert (Hi : (i < 12)%nat) by (rewrite <- L; apply nth_error_Some; congruence).
  exists (nth i month_start_day 0%Z).
  assert (R : (0 <= nth i month_start_day 0 < 365)%Z) by (do 12 (destruct i as [|i]; [cbn; lia|]); lia).
  split; [lia|].
  destruct (c06_inlet c l (nth i month_start_day 0%Z) 1440 (nth i month_start_day 0%Z) i E1 E2 L) as (x & X1 & X2).
  - split; [lia|]. exists 0%Z. lia.
  - split; [exact Hi|]. rewrite year_sum by exact Hi. rewrite <- month_start_sum by exact Hi.
    do 12 (destruct i as [|i]; [cbn; lia|]); lia.
  - congruence.
Qed.

(** ** Buckets *)

Lemma in_bucket_floor x : in_bucket (qz (Qfloor (x / 5)) * 5) x.
Proof.
  unfold in_bucket, qz. pose proof (Qfloor_le (x / 5)) as A. pose proof (Qlt_floor (x / 5)) as B.
  rewrite inject_Z_plus in B. change (inject_Z 1) with 1 in B.
  set (f := inject_Z (Qfloor (x / 5))) in *.
  assert (E : x / 5 * 5 == x) by field.
  split; [|].
  - assert (f * 5 <= x / 5 * 5) by (apply Qmult_le_compat_r; lra). lra.
  - assert (x / 5 * 5 < (f + 1) * 5) by (apply Qmult_lt_compat_r; lra). lra.
Qed.

Lemma bucket_unique z1 z2 x :
  in_bucket (qz z1 * 5) x -> in_bucket (qz z2 * 5) x -> z1 = z2.
Proof.
  unfold in_bucket, qz. intros [A B] [C D].
  assert (H1 : inject_Z z1 < inject_Z (z2 + 1)).
  { rewrite inject_Z_plus. change (inject_Z 1) with 1. lra. }
  assert (H2 : inject_Z z2 < inject_Z (z1 + 1)).
  { rewrite inject_Z_plus. change (inject_Z 1) with 1. lra. }
  rewrite <- Zlt_Qlt in H1, H2. lia.
Qed.

Fixpoint count (P : nat -> bool) (l : list nat) : Z :=
  match l with [] => 0 | x :: r => (if P x then 1 else 0) + count P r end.

(** Lookup of the count of a bucket. *)
Fixpoint bget (d : list (Q * Z)) (b : Q) : Z :=
  match d with [] => 0 | (k, n) :: r => if Qeq_bool k b then n else bget r b end.

Lemma bget_compat d a b : a == b -> bget d a = bget d b.
Proof.
  intro E. induction d as [|[k n] r IH]; [reflexivity|]. cbn [bget].
  destruct (Qeq_bool k a) eqn:A, (Qeq_bool k b) eqn:B; auto; qbool; exfalso; lra.
Qed.

Lemma bget_add d a b : bget (bucket_add a d) b = (bget d b + (if Qeq_bool a b then 1 else 0))%Z.
Proof.
  induction d as [|[k n] r IH]; cbn [bucket_add bget].
  - destruct (Qeq_bool a b); lia.
  - destruct (Qeq_bool k a) eqn:A; cbn [bget].
    + destruct (Qeq_bool k b) eqn:B, (Qeq_bool a b) eqn:C; try lia; qbool; exfalso.
      * apply C. lra.
      * apply B. lra.
    + rewrite IH. destruct (Qeq_bool k b) eqn:B; [|reflexivity].
      destruct (Qeq_bool a b) eqn:C; [|lia]. qbool. exfalso. apply A. lra.
Qed.

Lemma keys_add a d : map fst (bucket_add a d) = map fst d \/
  (map fst (bucket_add a d) = map fst d ++ [a] /\ forall k, In k (map fst d) -> ~ k == a).
Proof.
  induction d as [|[k n] r IH]; cbn [bucket_add map fst].
  - right. split; [reflexivity|]. intros k [].
  - destruct (Qeq_bool k a) eqn:A; cbn [map fst]; [auto|]. qbool.
    destruct IH as [->|[-> H]]; [auto|]. right. split; [reflexivity|].
    intros k' [<-|Hk]; auto.
Qed.


Lemma qnodup_snoc l a : qnodup l -> (forall k, In k l -> ~ k == a) -> qnodup (l ++ [a]).
Proof.
  induction l as [|x l IH]; cbn [app qnodup].
  - intros _ _. split; [intros y []|exact I].
  - intros [H1 H2] H. split.
    + intros y Hy. apply in_app_or in Hy. destruct Hy as [Hy|[<-|[]]]; [auto|]. apply H. left; reflexivity.
    + apply IH; [exact H2|]. intros k Hk. apply H. right; exact Hk.
Qed.

Lemma bget_in d k n : qnodup (map fst d) -> In (k, n) d -> bget d k = n.
Proof.
  induction d as [|[k0 n0] r IH]; cbn [map fst qnodup bget]; [intros _ []|].
  intros [H1 H2] [E|H].
  - inversion E; subst. destruct (Qeq_bool k k) eqn:Q0; [reflexivity|]. qbool. exfalso; apply Q0; reflexivity.
  - destruct (Qeq_bool k0 k) eqn:Q0; [|auto]. qbool. exfalso.
    apply (H1 k); [|exact Q0]. change k with (fst (k, n)). apply in_map. exact H.
Qed.

Lemma bget_pos_in d b : bget d b <> 0%Z -> exists k n, In (k, n) d /\ k == b.
Proof.
  induction d as [|[k n] r IH]; cbn [bget]; [congruence|].
  destruct (Qeq_bool k b) eqn:E; qbool.
  - intros _. exists k, n. split; [left; reflexivity|exact E].
  - intro H. destruct (IH H) as (k' & n' & I & Q0). exists k', n'. split; [right; exact I|exact Q0].
Qed.


Lemma total_add a d : total (bucket_add a d) = (total d + 1)%Z.
Proof.
  induction d as [|[k n] r IH]; cbn [bucket_add total]; [reflexivity|].
  destruct (Qeq_bool k a); cbn [total]; lia.
Qed.

Lemma bucket_add_pos a d k n :
  (forall k n, In (k, n) d -> (0 < n)%Z) -> In (k, n) (bucket_add a d) -> (0 < n)%Z.
Proof.
  induction d as [|[k0 n0] r IH]; cbn [bucket_add].
  - intros _ [E|[]]. inversion E; lia.
  - intros H. destruct (Qeq_bool k0 a).
    + intros [E|Hin]; [inversion E; subst; pose proof (H k n0 (or_introl eq_refl)); lia|].
      apply (H k n). right. exact Hin.
    + intros [E|Hin]; [inversion E; subst; apply (H k n); left; reflexivity|].
      apply IH; [|exact Hin]. intros k' n' H'. apply (H k' n'). right; exact H'.
Qed.

Lemma bucket_key_shape a d k n :
  In (k, n) (bucket_add a d) -> k = a \/ exists n', In (k, n') d.
Proof.
  induction d as [|[k0 n0] r IH]; cbn [bucket_add].
  - intros [E|[]]. inversion E; auto.
  - destruct (Qeq_bool k0 a).
    + intros [E|H]; [inversion E; subst; right; exists n0; left; reflexivity|].
      right. exists n. right. exact H.
    + intros [E|H]; [inversion E; subst; right; exists n; left; reflexivity|].
      destruct (IH H) as [->|[n' H']]; [auto|]. right. exists n'. right. exact H'.
Qed.

(** Invariant of the counting loop after the days [days]. *)
Lemma buckets_loop (B : nat -> Q) days d0 :
  qnodup (map fst d0) -> (forall k n, In (k, n) d0 -> (0 < n)%Z) ->
  let d := fold_left (fun d day => bucket_add (B day) d) days d0 in
  qnodup (map fst d) /\ (forall k n, In (k, n) d -> (0 < n)%Z) /\
  total d = (total d0 + Z.of_nat (length days))%Z /\
  (forall b, bget d b = (bget d0 b + count (fun x => Qeq_bool (B x) b) days)%Z) /\
  (forall k n, In (k, n) d -> (exists n', In (k, n') d0) \/ exists x, In x days /\ k = B x).
Proof.
  revert d0. induction days as [|x days IH]; intros d0 ND P; cbn [fold_left]; cbv zeta.
  - split; [exact ND|]. split; [exact P|]. split; [cbn; lia|]. split; [cbn; intro; lia|].
    intros k n H. left. eauto.
  - assert (ND' : qnodup (map fst (bucket_add (B x) d0))).
    { destruct (keys_add (B x) d0) as [->|[-> H]]; [exact ND|]. apply qnodup_snoc; assumption. }
    assert (P' : forall k n, In (k, n) (bucket_add (B x) d0) -> (0 < n)%Z).
    { intros k n. apply bucket_add_pos. exact P. }
    destruct (IH _ ND' P') as (A1 & A2 & A3 & A4 & A5).
    split; [exact A1|]. split; [exact A2|]. split; [|split].
    + rewrite A3, total_add. cbn [length]. lia.
    + intro b. rewrite A4, bget_add. cbn [count]. lia.
    + intros k n H. destruct (A5 k n H) as [[n' H']|(y & Hy & E)].
      * destruct (bucket_key_shape _ _ _ _ H') as [->|[n2 H2]]; [right; exists x; split; [left|]; reflexivity|left; eauto].
      * right. exists y. split; [right; exact Hy|exact E].
Qed.

Lemma count_ext P P' l : (forall x, In x l -> P x = P' x) -> count P l = count P' l.
Proof.
  induction l as [|x l IH]; intro H; [reflexivity|]. cbn [count].
  rewrite (H x (or_introl eq_refl)), IH; [reflexivity|]. intros y Hy. apply H. right; exact Hy.
Qed.

Lemma count_filter P l : count P l = Z.of_nat (length (filter P l)).
Proof.
  induction l as [|x l IH]; [reflexivity|]. cbn [count filter].
  destruct (P x); cbn [length]; rewrite IH; lia.
Qed.

Lemma ok_inj {A} (x y : A) : Ok x = Ok y -> x = y.
Proof. congruence. Qed.

Lemma bucket_test l z d : Qeq_bool (day_bucket l d) (qz z * 5) =
              (Qle_bool (qz z * 5) (day_mean l d) && qltb (day_mean l d) (qz z * 5 + 5))%bool.
Proof.
  pose proof (in_bucket_floor (day_mean l d)) as IB.
  change (qz (Qfloor (day_mean l d / 5)) * 5) with (day_bucket l d) in IB.
  assert (EB : day_bucket l d = qz (Qfloor (day_mean l d / 5)) * 5) by reflexivity.
  generalize dependent (day_bucket l d). generalize (day_mean l d). intros x k IB EB.
  destruct (Qeq_bool k (qz z * 5)) eqn:Q0.
    - apply qeqb_true in Q0. symmetry. apply andb_true_iff. destruct IB as [I1 I2].
      split; [apply qleb_true|apply qltb_true]; lra.
    - symmetry. apply andb_false_iff.
      destruct (Qle_bool (qz z * 5) x) eqn:Q1; [|auto]. right.
      destruct (qltb x (qz z * 5 + 5)) eqn:Q2; [|reflexivity]. exfalso.
      apply qeqb_false in Q0. apply qleb_true in Q1. apply qltb_true in Q2. apply Q0.
      assert (EZ : Qfloor (x / 5) = z).
      { apply (bucket_unique _ _ x); [rewrite <- EB; exact IB|split; assumption]. }
      rewrite EB, EZ. reflexivity.
Qed.

Lemma c08 c l bs :
  cz_oat c = Some l -> cz_oat_buckets c = Ok bs ->
  total bs = 365%Z /\
  qnodup (map fst bs) /\
  (forall k n, In (k, n) bs ->
     (exists z, k = qz z * 5) /\ (0 < n)%Z /\
     n = Z.of_nat (length (filter (fun d => Qle_bool k (day_mean l d) && qltb (day_mean l d) (k + 5)) (seq 0 365)))) /\
  (forall d, (d < 365)%nat -> exists k n, In (k, n) bs /\ in_bucket k (day_mean l d)).
Proof.
  intros E H. unfold cz_oat_buckets in H. rewrite E in H. apply ok_inj in H. subst bs.
  destruct (buckets_loop (day_bucket l) (seq 0 365) []) as (A1 & A2 & A3 & A4 & A5).
  { exact I. } { intros k n []. }
  set (bs := fold_left (fun d day => bucket_add (day_bucket l day) d) (seq 0 365) []) in *.
  pose proof (bucket_test l) as K.
  generalize dependent bs. intros bs A1 A2 A3 A4 A5.
  split; [rewrite A3; cbn [total]; rewrite seq_length; reflexivity|].
  split; [exact A1|]. split.
  - intros k n Hk. destruct (A5 k n Hk) as [[n' []]|(d & Hd & Ek)].
    assert (EZ : k = qz (Qfloor (day_mean l d / 5)) * 5) by exact Ek.
    split; [eauto|]. split; [exact (A2 k n Hk)|].
    rewrite <- (bget_in _ _ _ A1 Hk), A4. cbn [bget]. rewrite EZ.
    rewrite Z.add_0_l, (count_ext _ _ _ (fun x _ => K _ x)). apply count_filter.
  - intros d Hd.
    destruct (bget_pos_in bs (day_bucket l d)) as (k & n & Hk & Ek).
    { rewrite A4. cbn [bget].
      assert (G : forall P ls, In d ls -> P d = true -> (0 < count P ls)%Z).
      { intros P ls. induction ls as [|x ls IH]; cbn [count]; [intros []|].
        intros [->|Hin] Pd.
        - rewrite Pd. assert (0 <= count P ls)%Z by (rewrite count_filter; lia). lia.
        - specialize (IH Hin Pd). destruct (P x); lia. }
      assert (0 < count (fun x => Qeq_bool (day_bucket l x) (day_bucket l d)) (seq 0 365))%Z.
      { apply G; [apply in_seq; lia|]. apply qeqb_true. reflexivity. }
      lia. }
    exists k, n. split; [exact Hk|].
    pose proof (in_bucket_floor (day_mean l d)) as IB.
    change (qz (Qfloor (day_mean l d / 5)) * 5) with (day_bucket l d) in IB.
    destruct IB as [I1 I2]. split; lra.
Qed.

(** ** Zone data *)

Lemma c56_column rows z ncols :
  (forall row, In row rows -> length row = ncols) -> (1 <= z <= Z.of_nat ncols)%Z ->
  cz_load_column rows z = Ok (map (fun row => nth (Z.to_nat (z - 1)) row 0) rows).
Proof.
  intros L Hz. unfold cz_load_column. induction rows as [|r rows IH]; [reflexivity|].
  cbn [mapM map].
  assert (Lr : length r = ncols) by (apply L; left; reflexivity).
  rewrite (py_nth_nonneg r (z - 1) (nth (Z.to_nat (z - 1)) r 0)); [|lia|apply nth_error_nth'; lia].
  cbn [bind]. rewrite IH by (intros; apply L; right; assumption). reflexivity.
Qed.

Lemma c56_out_of_range rows z ncols r rest :
  rows = r :: rest -> length r = ncols -> (z > Z.of_nat ncols \/ z < 1 - Z.of_nat ncols)%Z ->
  cz_load_column rows z = Err IndexError.
Proof.
  intros -> L Hz. unfold cz_load_column. cbn [mapM].
  assert (E : py_nth r (z - 1) = Err IndexError).
  { unfold py_nth. rewrite L. cbv zeta.
    destruct (z - 1 <? 0)%Z eqn:N.
    - apply Z.ltb_lt in N. destruct ((z - 1 + Z.of_nat ncols <? 0) || (Z.of_nat ncols <=? z - 1 + Z.of_nat ncols))%Z eqn:B; [reflexivity|].
      apply orb_false_iff in B. destruct B as [B1 B2]. apply Z.ltb_ge in B1. lia.
    - apply Z.ltb_ge in N. destruct ((z - 1 <? 0) || (Z.of_nat ncols <=? z - 1))%Z eqn:B; [reflexivity|].
      apply orb_false_iff in B. destruct B as [B1 B2]. apply Z.leb_gt in B2. lia. }
  rewrite E. reflexivity.
Qed.

Lemma cz_lookup_spec table key :
  match cz_lookup table key with
  | Ok z => exists pre post, table = pre ++ (key, z) :: post /\ forall k v, In (k, v) pre -> k <> key
  | Err e => e = ValueError /\ forall k v, In (k, v) table -> k <> key
  end.
Proof.
  induction table as [|[k v] t IH]; cbn [cz_lookup].
  - split; [reflexivity|]. intros k v [].
  - destruct (String.eqb k key) eqn:E.
    + apply String.eqb_eq in E. subst. exists [], t. split; [reflexivity|]. intros k' v' [].
    + apply String.eqb_neq in E. destruct (cz_lookup t key) as [z|e].
      * destruct IH as (pre & post & -> & H). exists ((k, v) :: pre), post. split; [reflexivity|].
        intros k' v' [K|K]; [inversion K; subst; exact E|eauto].
      * destruct IH as [-> H]. split; [reflexivity|]. intros k' v' [K|K]; [inversion K; subst; exact E|eauto].
Qed.

Lemma cz_lookup_unique table key z :
  NoDup (map fst table) -> In (key, z) table -> cz_lookup table key = Ok z.
Proof.
  induction table as [|[k v] t IH]; cbn [map fst cz_lookup]; [intros _ []|].
  intros ND [E|H].
  - inversion E; subst. rewrite String.eqb_refl. reflexivity.
  - inversion ND as [|a b N1 N2]; subst. destruct (String.eqb k key) eqn:Q0; [|auto].
    apply String.eqb_eq in Q0. subst. exfalso. apply N1. change key with (fst (key, z)). apply in_map. exact H.
Qed.

Lemma c57_listed stations exclude st z :
  In (st, z) (engine_weather_stations stations exclude) <->
  In (st, z) stations /\ ~ In z (match exclude with Some l => l | None => [96%Z] end).
Proof.
  unfold engine_weather_stations. rewrite filter_In. cbn [snd].
  set (ex := match exclude with Some l => l | None => [96%Z] end).
  rewrite negb_true_iff.
  assert (G : existsb (Z.eqb z) ex = false <-> ~ In z ex).
  { split.
    - intros E C. assert (existsb (Z.eqb z) ex = true); [|congruence].
      apply existsb_exists. exists z. split; [exact C|apply Z.eqb_refl].
    - intro N. destruct (existsb (Z.eqb z) ex) eqn:E; [|reflexivity]. exfalso. apply N.
      apply existsb_exists in E. destruct E as (y & Hy & E). apply Z.eqb_eq in E. subst. exact Hy. }
  rewrite G. tauto.
Qed.

(** Boolean check of [valid_shape], for the shipped data. *)
Definition valid_shapeb (l : list Q) : bool :=
  match validate_load_shape l with Ok _ => true | Err _ => false end.
Lemma valid_shapeb_ok l : valid_shapeb l = true -> valid_shape l.
Proof.
  unfold valid_shapeb. destruct (validate_load_shape l) as [u|] eqn:E; [|discriminate].
  intros _. eapply validate_tt; eauto.
Qed.

Fixpoint nodupb (l : list string) : bool :=
  match l with [] => true | x :: r => negb (existsb (String.eqb x) r) && nodupb r end.
Lemma nodupb_ok l : nodupb l = true -> NoDup l.
Proof.
  induction l as [|x l IH]; cbn [nodupb]; intro H; constructor.
  - apply andb_true_iff in H. destruct H as [H _]. apply negb_true_iff in H. intro C.
    assert (existsb (String.eqb x) l = true); [|congruence].
    apply existsb_exists. exists x. split; [exact C|apply String.eqb_refl].
  - apply andb_true_iff in H. tauto.
Qed.

Lemma daily_nonneg b u t iv x :
  0 <= bd_daily b -> (forall y, In y (shape_of b u) -> 0 <= y) -> (0 <= iv)%Z ->
  bd_load b t iv u = Ok x -> 0 <= x.
Proof.
  intros D P I H. unfold bd_load in H. fold (shape_of b u) in H. cbv zeta in H.
  destruct (Z.of_nat (length (shape_of b u)) =? 0)%Z; [discriminate|].
  destruct (bind_ok _ _ _ H) as (y & Y & E). inversion E; subst.
  apply py_nth_in in Y. specialize (P _ Y).
  assert (0 <= qz iv) by (unfold qz; change 0 with (inject_Z 0); rewrite <- Zle_Qle; exact I).
  assert (0 <= bd_daily b * y) by (apply Qmult_le_0_compat; assumption).
  assert (0 <= bd_daily b * y * qz iv) by (apply Qmult_le_0_compat; assumption).
  unfold Qdiv. change (/ 60) with (1 # 60). lra.
Qed.

(** Switching sequences. *)
Lemma switch_restores lib b b1 b2 f :
  lib_file lib "multi_family"%string = Some f ->
  bd_peak b = sf_stream f -> sf_stream_avg f = Some (bd_avg b) ->
  bd_set_annual lib b = Ok b1 -> bd_set_daily lib b1 = Ok b2 -> b2 = b.
Proof.
  intros F P A H1 H2. destruct (set_annual_inv _ _ _ H1) as (_ & T & D & C & _).
  destruct (set_daily_inv _ _ _ H2) as (_ & T2 & D2 & C2 & f2 & a2 & F2 & A2 & P2 & Av2).
  destruct b, b2; cbn in *. rewrite F in F2. inversion F2; subst f2. congruence.
Qed.
Lemma switch_restores' lib b b1 b2 f :
  lib_file lib "multi_family"%string = Some f ->
  sf_annual f = Some (bd_peak b) -> bd_avg b = bd_peak b ->
  bd_set_daily lib b = Ok b1 -> bd_set_annual lib b1 = Ok b2 -> b2 = b.
Proof.
  intros F P A H1 H2. destruct (set_daily_inv _ _ _ H1) as (_ & T & D & C & _).
  destruct (set_annual_inv _ _ _ H2) as (_ & T2 & D2 & C2 & f2 & a2 & F2 & A2 & P2 & Av2).
  destruct b, b2; cbn in *. rewrite F in F2. inversion F2; subst f2. congruence.
Qed.

Lemma run_switches_last lib l s b b' :
  run_switches lib b (l ++ [s]) = Ok b' ->
  bd_type b' = bd_type b /\ bd_daily b' = bd_daily b /\ bd_climate b' = bd_climate b /\
  exists f, lib_file lib "multi_family"%string = Some f /\
  match s with
  | ToAnnual => sf_annual f = Some (bd_peak b') /\ sf_annual f = Some (bd_avg b')
  | ToDaily => sf_stream f = bd_peak b' /\ sf_stream_avg f = Some (bd_avg b')
  end.
Proof.
  revert b. induction l as [|x l IH]; intros b H; cbn [app run_switches] in H.
  - destruct (bind_ok _ _ _ H) as (b1 & E & H1). inversion H1; subst.
    destruct s; cbn [apply_switch] in E.
    + destruct (set_annual_inv _ _ _ E) as (_ & T & D & C & f & a & F & A & P1 & P2).
      repeat (split; [assumption|]). exists f. split; [exact F|]. split; congruence.
    + destruct (set_daily_inv _ _ _ E) as (_ & T & D & C & f & a & F & A & P1 & P2).
      repeat (split; [assumption|]). exists f. split; [exact F|]. split; congruence.
  - destruct (bind_ok _ _ _ H) as (b1 & E & H1). destruct (IH b1 H1) as (T & D & C & R).
    assert (K : bd_type b1 = bd_type b /\ bd_daily b1 = bd_daily b /\ bd_climate b1 = bd_climate b).
    { destruct x; cbn [apply_switch] in E.
      - destruct (set_annual_inv _ _ _ E) as (_ & ? & ? & ? & _). auto.
      - destruct (set_daily_inv _ _ _ E) as (_ & ? & ? & ? & _). auto. }
    destruct K as (K1 & K2 & K3). rewrite <- K1, <- K2, <- K3. auto.
Qed.

Lemma set_rejects lib b : bd_type b <> "multi_family"%string ->
  bd_set_annual lib b = Err ValueError /\ bd_set_daily lib b = Err ValueError.
Proof.
  intro N. unfold bd_set_annual, bd_set_daily.
  apply String.eqb_neq in N. rewrite N. auto.
Qed.
