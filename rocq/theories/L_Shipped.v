(** A checker for coefficient tables, and its soundness (C77). *)
From Verif Require Import Prelude M_Heater S_Heater L_Heater.
Open Scope Q_scope.

(** The quadratic with these coefficients is at least [b] on [lo, hi]. *)
Definition quad_ge (c : list Q) (lo hi b : Q) : bool :=
  (Qle_bool b (poly2 c lo) && Qle_bool b (poly2 c hi) &&
   (Qle_bool (nth 2 c 0) 0 ||
    Qle_bool 0 (nth 1 c 0 + 2 * nth 2 c 0 * lo) ||
    Qle_bool (nth 1 c 0 + 2 * nth 2 c 0 * hi) 0 ||
    Qle_bool (nth 1 c 0 * nth 1 c 0) (4 * nth 2 c 0 * (nth 0 c 0 - b))))%bool.

Lemma quad_ge_sound c lo hi b x :
  quad_ge c lo hi b = true -> lo < hi -> lo <= x -> x <= hi -> b <= poly2 c x.
Proof.
  unfold quad_ge, poly2. intros H LH L U.
  set (a0 := nth 0 c 0) in *. set (a1 := nth 1 c 0) in *. set (a2 := nth 2 c 0) in *. clearbody a0 a1 a2.
  apply andb_true_iff in H. destruct H as [H H3]. apply andb_true_iff in H. destruct H as [H1 H2].
  rewrite !orb_true_iff in H3. rewrite !Qle_bool_iff in *.
  destruct (Qlt_le_dec 0 a2) as [P|N].
  - destruct H3 as [[[H3|H3]|H3]|H3]; [exfalso; lra| | |].
    + assert (0 <= (x - lo) * (a1 + a2 * (x + lo))).
      { apply qmul_nonneg; [lra|]. assert (0 <= a2 * (x - lo)) by (apply qmul_nonneg; lra). lra. }
      lra.
    + assert (0 <= (hi - x) * (- a1 - a2 * (x + hi))).
      { apply qmul_nonneg; [lra|]. assert (0 <= a2 * (hi - x)) by (apply qmul_nonneg; lra). lra. }
      lra.
    + destruct (Qlt_le_dec (a0 + a1 * x + a2 * x * x) b) as [C|C]; [|exact C]. exfalso.
      assert (0 < a2 * (b - (a0 + a1 * x + a2 * x * x))) by (apply qmul_pos; lra).
      assert (0 <= (2 * a2 * x + a1) * (2 * a2 * x + a1)) by (generalize (2 * a2 * x + a1); clear; intro z; nra).
      lra.
  - destruct (Qlt_le_dec (a0 + a1 * x + a2 * x * x) b) as [C|C]; [|exact C]. exfalso.
    assert (0 < (hi - lo) * (b - (a0 + a1 * x + a2 * x * x))) by (apply qmul_pos; lra).
    assert (0 <= (hi - x) * (a0 + a1 * lo + a2 * lo * lo - b)) by (apply qmul_nonneg; lra).
    assert (0 <= (x - lo) * (a0 + a1 * hi + a2 * hi * hi - b)) by (apply qmul_nonneg; lra).
    assert (0 <= (- a2) * ((hi - x) * (x - lo) * (hi - lo))).
    { apply qmul_nonneg; [lra|]. apply qmul_nonneg; [apply qmul_nonneg; lra|lra]. }
    lra.
Qed.

(** One bracket: at least a watt, and a COP of at least one. *)
Definition entry_good (e : hp_entry) : bool :=
  ((3 <=? length (he_pow e))%nat && (3 <=? length (he_cop e))%nat &&
   quad_ge (he_pow e) 32 145 1 && quad_ge (he_cop e) 32 145 1)%bool.

(** The bracket the straight line through two brackets reaches at 114 F. *)
Definition ext_coefs (p n : list Q) (k : Q) : list Q :=
  map (fun i => Qred (nth i p 0 + (nth i n 0 - nth i p 0) * k)) [0; 1; 2]%nat.
Definition ext_entry (p n : hp_entry) : hp_entry :=
  let k := (114 - he_T p) / (he_T n - he_T p) in
  mkHpEntry 114 (ext_coefs (he_cop p) (he_cop n) k) (ext_coefs (he_pow p) (he_pow n) k).

Fixpoint table_good (l : list hp_entry) : bool :=
  match l with
  | a :: r =>
      (entry_good a &&
       match r with
       | [] => true
       | b :: r' =>
           qltb (he_T a) (he_T b) &&
           match r' with
           | [] => entry_good b && qltb (he_T b) 114 && entry_good (ext_entry a b)
           | _ => table_good r
           end
       end)%bool
  | [] => false
  end.

Lemma entry_good_ok e : entry_good e = true -> entry_ok e.
Proof.
  unfold entry_good. rewrite !andb_true_iff, !Nat.leb_le. intros (((A & B) & _) & _). split; assumption.
Qed.
Lemma entry_good_pow e x : entry_good e = true -> 32 <= x -> x <= 145 -> 1 <= poly2 (he_pow e) x.
Proof.
  unfold entry_good. rewrite !andb_true_iff. intros (((_ & _) & A) & _) L U.
  apply (quad_ge_sound _ 32 145); auto. reflexivity.
Qed.
Lemma entry_good_cop e x : entry_good e = true -> 32 <= x -> x <= 145 -> 1 <= poly2 (he_cop e) x.
Proof.
  unfold entry_good. rewrite !andb_true_iff. intros (_ & A) L U.
  apply (quad_ge_sound _ 32 145); auto. reflexivity.
Qed.

Lemma table_good_ok l : table_good l = true -> (2 <= length l)%nat -> table_ok l.
Proof.
  intros G L2. split; [exact L2|].
  assert (K : increasing l /\ Forall entry_ok l).
  { clear L2. induction l as [|a r IH]; [discriminate|].
    cbn [table_good] in G. apply andb_true_iff in G. destruct G as [GA G].
    destruct r as [|b r]; [split; [exact I|repeat constructor; apply (entry_good_ok _ GA)]|].
    apply andb_true_iff in G. destruct G as [GT G]. apply qltb_true in GT.
    destruct r as [|c r].
    - rewrite !andb_true_iff in G. destruct G as [[GB _] _].
      split; [split; [exact GT|exact I]|].
      constructor; [exact (entry_good_ok _ GA)|constructor; [exact (entry_good_ok _ GB)|constructor]].
    - destruct (IH G) as [K1 K2]. split; [split; [exact GT|exact K1]|].
      constructor; [exact (entry_good_ok _ GA)|exact K2]. }
  exact K.
Qed.

Lemma ext_coefs_value p n k x :
  poly2 (ext_coefs p n k) x == poly2 p x + (poly2 n x - poly2 p x) * k.
Proof. unfold poly2, ext_coefs. cbn [map nth]. rewrite !Qred_correct. ring. Qed.

(** A straight line that is at least [lo] at both ends of a range is so within it. *)
Lemma line_above ta tb ya yb te ye oat lo :
  ta < tb -> tb < te -> ye == ya + (yb - ya) * ((te - ta) / (tb - ta)) ->
  lo <= ya -> lo <= ye -> ta <= oat -> oat <= te ->
  lo <= ya * ((tb - oat) / (tb - ta)) + yb * ((oat - ta) / (tb - ta)).
Proof.
  intros AB BE EY LA LE HA HE.
  set (s := (te - oat) / (te - ta)). set (t := (oat - ta) / (te - ta)).
  assert (Es : s + t == 1) by (unfold s, t; field; lra).
  assert (0 <= s) by (unfold s; apply qdiv_nonneg; lra).
  assert (0 <= t) by (unfold t; apply qdiv_nonneg; lra).
  assert (E : ya * ((tb - oat) / (tb - ta)) + yb * ((oat - ta) / (tb - ta)) == ya * s + ye * t).
  { rewrite EY. unfold s, t. field. split; lra. }
  rewrite E. nra.
Qed.

(** In a good table every outdoor temperature from the first bracket to 114 F falls on a pair of
    brackets whose straight lines keep at least a watt and a COP of one. *)
Lemma table_good_at l oat x :
  table_good l = true -> (2 <= length l)%nat -> oat <= 114 -> 32 <= x -> x <= 145 ->
  (forall a r, l = a :: r -> he_T a <= oat) ->
  exists pre a b post, l = pre ++ a :: b :: post /\ he_T a <= oat /\ (oat <= he_T b \/ post = []) /\
    1 # 1000 <= blend a b (rated_kw a x) (rated_kw b x) oat /\
    1 <= blend a b (rated_cop a x) (rated_cop b x) oat.
Proof.
  intros G L2 HO X1 X2. revert G L2. induction l as [|a r IH]; intros G L2 HF; [discriminate|].
  specialize (HF a r eq_refl) as HA.
  cbn [table_good] in G. apply andb_true_iff in G. destruct G as [GA G].
  destruct r as [|b r]; [cbn in L2; lia|].
  apply andb_true_iff in G. destruct G as [GT G]. apply qltb_true in GT.
  assert (W : forall e, entry_good e = true -> 1 # 1000 <= rated_kw e x).
  { intros e E. unfold rated_kw. pose proof (entry_good_pow e x E X1 X2) as P.
    setoid_replace (poly2 (he_pow e) x / 1000) with ((1 # 1000) * poly2 (he_pow e) x) by field. lra. }
  assert (C : forall e, entry_good e = true -> 1 <= rated_cop e x)
    by (intros e E; exact (entry_good_cop e x E X1 X2)).
  destruct r as [|c r].
  - rewrite !andb_true_iff in G. destruct G as [[GB GL] GE]. apply qltb_true in GL.
    exists [], a, b, []. split; [reflexivity|]. split; [exact HA|]. split; [right; reflexivity|].
    unfold blend.
    split.
    + apply (line_above _ _ _ _ 114 (rated_kw (ext_entry a b) x)); auto.
      unfold rated_kw at 1, ext_entry. cbn [he_pow]. rewrite ext_coefs_value. unfold rated_kw. field. lra.
    + apply (line_above _ _ _ _ 114 (rated_cop (ext_entry a b) x)); auto.
      unfold rated_cop at 1, ext_entry. cbn [he_cop]. rewrite ext_coefs_value. unfold rated_cop. reflexivity.
  - destruct (Qlt_le_dec (he_T b) oat) as [HB|HB].
    + destruct (IH G) as (pre & p & n & post & E & K); [cbn; lia|intros a' r' E'; injection E' as <- <-; lra|].
      exists (a :: pre), p, n, post. split; [rewrite E; reflexivity|exact K].
    + assert (GB : entry_good b = true).
      { cbn [table_good] in G. apply andb_true_iff in G. apply G. }
      exists [], a, b, (c :: r). split; [reflexivity|]. split; [exact HA|]. split; [left; exact HB|].
      split.
      * apply (blend_between a b _ _ oat _ (qmax (rated_kw a x) (rated_kw b x))); auto; [apply qmax_l|apply qmax_r].
      * apply (blend_between a b _ _ oat _ (qmax (rated_cop a x) (rated_cop b x))); auto; [apply qmax_l|apply qmax_r].
Qed.

Lemma good_map_runs m oat inlet outlet :
  table_good (hp_perfmap m) = true -> (2 <= length (hp_perfmap m))%nat -> (1 <= hp_units m)%Z ->
  32 <= hp_design_inlet m -> hp_design_inlet m <= 145 ->
  (forall n, hp_nominal m = Some n -> 0 < n) ->
  let x := match inlet with Some x => x | None => hp_design_inlet m end in
  32 <= x -> x <= 145 -> oat <= 114 ->
  exists kw cap, hp_power m (Some oat) outlet inlet = Ok kw /\ hp_capacity m (Some oat) outlet inlet = Ok cap /\
    0 < kw /\ kw * w_to_kbtuh <= cap /\
    (forall e r, hp_perfmap m = e :: r -> oat < he_T e -> cap == kw * w_to_kbtuh).
Proof.
  intros G L2 U D1 D2 N x X1 X2 HO.
  assert (UP : 0 < qz (hp_units m)).
  { unfold qz. change 0 with (inject_Z 0). rewrite <- Zlt_Qlt. lia. }
  assert (WP : 0 < w_to_kbtuh) by reflexivity.
  pose proof (table_good_ok _ G L2) as T.
  destruct (hp_perfmap m) as [|e r] eqn:EM; [discriminate|].
  assert (Nr : r <> []) by (intros ->; cbn in L2; lia).
  destruct (Qlt_le_dec oat (he_T e)) as [B|A].
  - assert (GE : entry_good e = true).
    { cbn [table_good] in G. apply andb_true_iff in G. apply G. }
    destruct (hp_nominal m) as [n|] eqn:EN.
    + assert (exists kw cap, hp_power m (Some oat) outlet inlet = Ok kw /\ hp_capacity m (Some oat) outlet inlet = Ok cap /\
        cap == n /\ cap == kw * w_to_kbtuh) as (kw & cap & K1 & K2 & K3 & K4).
      { apply (c32_below m oat inlet outlet e r n); auto. lia. }
      exists kw, cap. split; [exact K1|]. split; [exact K2|].
      specialize (N n eq_refl).
      split; [|split; [lra|intros; exact K4]].
      destruct (Qlt_le_dec 0 kw) as [P|P]; [exact P|]. exfalso.
      assert (0 <= (- kw) * w_to_kbtuh) by (apply qmul_nonneg; lra). lra.
    + destruct (c32_below_no_nominal m oat inlet outlet e r EM Nr (entry_good_ok _ GE) B EN) as (kw & cap & K1 & K2 & K3 & K4).
      exists kw, cap. split; [exact K1|]. split; [exact K2|].
      assert (CP : 0 < cap).
      { rewrite K4. apply qmul_pos; [exact UP|].
        eapply Qlt_le_trans; [|apply qmax_l].
        apply qmul_pos; [|exact WP]. apply qmul_pos.
        - eapply Qlt_le_trans; [|apply qmax_l].
          pose proof (entry_good_cop e _ GE D1 D2) as P. unfold rated_cop. lra.
        - unfold rated_kw. apply qdiv_pos; [|reflexivity].
          pose proof (entry_good_pow e _ GE D1 D2) as P. lra. }
      split; [|split; [lra|intros; exact K3]].
      destruct (Qlt_le_dec 0 kw) as [P|P]; [exact P|]. exfalso.
      assert (0 <= (- kw) * w_to_kbtuh) by (apply qmul_nonneg; lra). lra.
  - rewrite <- EM in G, L2, T.
    destruct (table_good_at _ oat x G L2 HO X1 X2) as (pre & a & b & post & E & HA & HB & K1 & K2).
    { intros a r' E. rewrite EM in E. injection E as <- <-. exact A. }
    destruct (c32_segment m _ oat x outlet a b pre post T E eq_refl HA HB) as (kw & cap & P1 & P2 & P3 & P4).
    exists kw, cap.
    assert (P1' : hp_power m (Some oat) outlet inlet = Ok kw) by (destruct inlet; exact P1).
    assert (P2' : hp_capacity m (Some oat) outlet inlet = Ok cap) by (destruct inlet; exact P2).
    split; [exact P1'|]. split; [exact P2'|].
    assert (KP : 0 < kw) by (rewrite P3; apply qmul_pos; lra).
    split; [exact KP|]. split.
    + rewrite P4.
      assert (0 <= kw * w_to_kbtuh * (blend a b (rated_cop a x) (rated_cop b x) oat - 1)).
      { apply qmul_nonneg; [apply Qlt_le_weak, qmul_pos; assumption|lra]. }
      lra.
    + intros e' r' E' B. injection E' as <- <-. exfalso. lra.
Qed.
