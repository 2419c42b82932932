(** Proofs about Controls, WaterHeater and the performance maps. *)
From Verif Require Import Prelude M_Heater S_Heater.

(** ** Python indexing *)
Lemma py_nth_nonneg {A} (l : list A) i x :
  (0 <= i)%Z -> nth_error l (Z.to_nat i) = Some x -> py_nth l i = Ok x.
Proof.
  intros Hi H. unfold py_nth. cbv zeta.
  assert (L : (Z.to_nat i < length l)%nat) by (apply nth_error_Some; congruence).
  destruct (i <? 0)%Z eqn:E; [apply Z.ltb_lt in E; lia|].
  destruct ((i <? 0) || (Z.of_nat (length l) <=? i))%Z eqn:B.
  - apply orb_true_iff in B. destruct B as [B|B]; [rewrite B in E; discriminate|].
    apply Z.leb_le in B. lia.
  - rewrite H. reflexivity.
Qed.

Lemma py_nth_nonneg_inv {A} (l : list A) i x :
  (0 <= i)%Z -> py_nth l i = Ok x -> nth_error l (Z.to_nat i) = Some x.
Proof.
  intros Hi H. unfold py_nth in H. cbv zeta in H.
  destruct (i <? 0)%Z eqn:E; [apply Z.ltb_lt in E; lia|].
  destruct ((i <? 0) || (Z.of_nat (length l) <=? i))%Z eqn:B; [discriminate|].
  destruct (nth_error l (Z.to_nat i)) as [y|]; [inversion H; reflexivity|discriminate].
Qed.

Lemma py_nth_in {A} (l : list A) i x : py_nth l i = Ok x -> In x l.
Proof.
  unfold py_nth. cbv zeta.
  match goal with |- (if ?b then _ else _) = _ -> _ => destruct b; [discriminate|] end.
  match goal with |- match nth_error l ?k with _ => _ end = _ -> _ =>
    destruct (nth_error l k) as [y|] eqn:E; [|discriminate] end.
  intro H; inversion H; subst. eapply nth_error_In; eauto.
Qed.

Lemma py_nth_last {A} (l : list A) d :
  l <> [] -> py_nth l (-1) = Ok (last l d).
Proof.
  intro N. unfold py_nth. cbv zeta. change (-1 <? 0)%Z with true. cbn iota.
  assert (0 < Z.of_nat (length l))%Z by (destruct l; [congruence|cbn [length]; lia]).
  destruct ((-1 + Z.of_nat (length l) <? 0) || (Z.of_nat (length l) <=? -1 + Z.of_nat (length l)))%Z eqn:B.
  - apply orb_true_iff in B. destruct B as [B|B]; [apply Z.ltb_lt in B|apply Z.leb_le in B]; lia.
  - replace (Z.to_nat (-1 + Z.of_nat (length l))) with (length l - 1)%nat by lia.
    clear B H. revert N. induction l as [|a [|b r] IH]; intro N; [congruence|reflexivity|].
    cbn [length]. replace (S (S (length r)) - 1)%nat with (S (length (b :: r) - 1)) by (cbn; lia).
    cbn [nth_error]. change (last (a :: b :: r) d) with (last (b :: r) d).
    apply IH. discriminate.
Qed.

(** ** C30 *)

Lemma in_effect_iff h hour c :
  (0 <= hour)%Z -> (in_effect h hour c <-> wh_controls_for h hour = Ok (Some c)).
Proof.
  intro Hh. unfold in_effect, wh_controls_for. split.
  - intros [_ (s & d & k & Es & Ed & Ek & Ec)]. rewrite Es, Ed.
    rewrite (py_nth_nonneg s hour k Hh Ek). cbn. rewrite Ec. reflexivity.
  - destruct (wh_schedule h) as [s|], (wh_map h) as [d|]; try discriminate.
    intro H. destruct (bind_ok _ _ _ H) as (k & Ek & Ec). inversion Ec as [Ec'].
    split; [exact Hh|]. exists s, d, k. repeat split; auto.
    apply py_nth_nonneg_inv; auto.
Qed.

Lemma wh_update_same h tk hour h' :
  wh_update h tk hour = Ok h' ->
  wh_pm h' = wh_pm h /\ wh_schedule h' = wh_schedule h /\ wh_map h' = wh_map h.
Proof.
  unfold wh_update. intro H. destruct (bind_ok _ _ _ H) as ([c|] & _ & K); [|discriminate].
  destruct (wh_active h); destruct (bind_ok _ _ _ K) as (b & _ & E); inversion E; subst;
    destruct b; cbn; auto.
Qed.

Lemma in_effect_same h h' hour c :
  wh_schedule h' = wh_schedule h -> wh_map h' = wh_map h ->
  (in_effect h' hour c <-> in_effect h hour c).
Proof. intros E1 E2. unfold in_effect. rewrite E1, E2. tauto. Qed.

Lemma calls_on_same h h' ev :
  wh_schedule h' = wh_schedule h -> wh_map h' = wh_map h -> (calls_on h' ev <-> calls_on h ev).
Proof.
  intros E1 E2. unfold calls_on. split; intros (c & x & A & B); exists c, x;
  (split; [apply (in_effect_same h h' (snd ev) c E1 E2); exact A|exact B]).
Qed.
Lemma calls_off_same h h' ev :
  wh_schedule h' = wh_schedule h -> wh_map h' = wh_map h -> (calls_off h' ev <-> calls_off h ev).
Proof.
  intros E1 E2. unfold calls_off. split; intros (c & x & A & B); exists c, x;
  (split; [apply (in_effect_same h h' (snd ev) c E1 E2); exact A|exact B]).
Qed.

Lemma c30_step h tk hour h' :
  (0 <= hour)%Z -> wh_update h tk hour = Ok h' ->
  (wh_active h = false -> (wh_active h' = true <-> calls_on h (tk, hour))) /\
  (wh_active h = true -> (wh_active h' = false <-> calls_off h (tk, hour))).
Proof.
  intros Hh H. unfold wh_update in H.
  destruct (bind_ok _ _ _ H) as ([c|] & Ec & K); [|discriminate].
  pose proof (proj2 (in_effect_iff h hour c Hh) Ec) as IE.
  assert (UN : forall c', in_effect h hour c' -> c' = c).
  { intros c' A. apply in_effect_iff in A; [|exact Hh]. congruence. }
  split; intro Act; rewrite Act in K.
  - unfold ct_should_turn_on in K.
    destruct (bind_ok _ _ _ K) as (b & Eb & Eh). destruct (bind_ok _ _ _ Eb) as (x & Ex & Eb').
    inversion Eb'; subst b. inversion Eh; subst h'. clear Eh Eb'.
    destruct (qltb x (ct_on_trigger c)) eqn:E; qbool.
    + split; intro; [|reflexivity]. exists c, x. cbn. auto.
    + split; intro A; [congruence|]. destruct A as (c' & x' & I' & R & L). cbn in *.
      rewrite (UN c' I') in *. rewrite R in Ex. inversion Ex; subst. exfalso; lra.
  - unfold ct_should_turn_off in K.
    destruct (bind_ok _ _ _ K) as (b & Eb & Eh). destruct (bind_ok _ _ _ Eb) as (x & Ex & Eb').
    inversion Eb'; subst b. inversion Eh; subst h'. clear Eh Eb'.
    destruct (Qle_bool (ct_off_trigger c) x) eqn:E; qbool.
    + split; intro; [|reflexivity]. exists c, x. cbn. auto.
    + split; intro A; [congruence|]. destruct A as (c' & x' & I' & R & L). cbn in *.
      rewrite (UN c' I') in *. rewrite R in Ex. inversion Ex; subst. exfalso; lra.
Qed.

Lemma c30_no_controls h tk hour :
  (0 <= hour)%Z -> (forall c, ~ in_effect h hour c) ->
  exists e, wh_update h tk hour = Err e /\ (e = ValueError \/ e = IndexError).
Proof.
  intros Hh N. unfold wh_update. destruct (wh_controls_for h hour) as [[c|]|e] eqn:E.
  - exfalso. apply (N c). apply in_effect_iff; auto.
  - exists ValueError. cbn. auto.
  - exists e. split; [reflexivity|]. revert E. unfold wh_controls_for.
    destruct (wh_schedule h) as [s|], (wh_map h) as [d|]; try discriminate.
    unfold py_nth. cbv zeta.
    repeat (match goal with |- context [if ?b then _ else _] => destruct b end;
            cbn; try (intro Z1; inversion Z1; auto; fail));
    destruct (nth_error s _); cbn; intro Z1; inversion Z1; auto.
Qed.

Lemma c30_step_succeeds h tk hour c x y :
  in_effect h hour c -> tk (ct_on_sensor c) = Ok x -> tk (ct_off_sensor c) = Ok y ->
  exists h', wh_update h tk hour = Ok h'.
Proof.
  intros I Ex Ey. pose proof (proj1 I) as Hh. apply in_effect_iff in I; [|exact Hh].
  unfold wh_update. rewrite I. cbn [bind].
  unfold ct_should_turn_off, ct_should_turn_on. rewrite Ex, Ey.
  destruct (wh_active h); cbn [bind]; eauto.
Qed.

Lemma wh_run_cons h tk hour r h' :
  wh_run h ((tk, hour) :: r) = Ok h' ->
  exists h1, wh_update h tk hour = Ok h1 /\ wh_run h1 r = Ok h'.
Proof. cbn. apply bind_ok. Qed.

Definition hours_ok (hist : list (tank_view * Z)) : Prop :=
  forall ev, In ev hist -> (0 <= snd ev)%Z.

Lemma c30_latch hist h h' :
  (forall ev, In ev hist -> (0 <= snd ev)%Z) ->
  (forall ev, In ev hist -> ~ (calls_on h ev /\ calls_off h ev)) ->
  wh_run h hist = Ok h' ->
  (wh_active h' = true <->
   (exists pre ev post, hist = pre ++ ev :: post /\ calls_on h ev /\
                        forall e, In e post -> ~ calls_off h e)
   \/ (wh_active h = true /\ forall e, In e hist -> ~ calls_off h e)).
Proof.
  revert h. induction hist as [|[tk hour] r IH]; intros h HH EX R.
  - cbn in R. inversion R; subst. split.
    + intro A. right. split; [exact A|]. intros e [].
    + intros [(pre & ev & post & E & _)|[A _]]; [|exact A]. destruct pre; discriminate.
  - destruct (wh_run_cons _ _ _ _ _ R) as (h1 & U & R1).
    destruct (wh_update_same _ _ _ _ U) as (_ & Es & Em).
    assert (H0 : (0 <= hour)%Z) by (apply (HH (tk, hour)); left; reflexivity).
    destruct (c30_step _ _ _ _ H0 U) as [Soff Son].
    specialize (IH h1). rewrite IH; [|intros ev Hev; apply HH; right; exact Hev| |exact R1].
    2:{ intros ev Hev. rewrite (calls_on_same h h1), (calls_off_same h h1) by auto.
        apply EX. right; exact Hev. }
    assert (ON1 : wh_active h1 = true <->
                  calls_on h (tk, hour) \/ (wh_active h = true /\ ~ calls_off h (tk, hour))).
    { destruct (wh_active h) eqn:A.
      - destruct (Son eq_refl) as [S1 S2].
        destruct (wh_active h1) eqn:A1.
        + split; intro; [|reflexivity]. right. split; [reflexivity|]. intro C. apply S2 in C. discriminate.
        + pose proof (S1 eq_refl) as C. split; [discriminate|]. intros [K|[_ K]]; [|tauto].
          exfalso. apply (EX (tk, hour)); [left; reflexivity|]. split; auto.
      - rewrite (Soff eq_refl). split; [auto|]. intros [K|[K _]]; [exact K|discriminate]. }
    split.
    + intros [(pre & ev & post & E & C & N)|[A N]].
      * left. exists ((tk, hour) :: pre), ev, post. rewrite E. split; [reflexivity|].
        split; [apply (calls_on_same h h1); auto|].
        intros e He K. apply (N e He). apply (calls_off_same h h1); auto.
      * apply ON1 in A. destruct A as [A|[A A']].
        -- left. exists [], (tk, hour), r. split; [reflexivity|]. split; [exact A|].
           intros e He K. apply (N e He). apply (calls_off_same h h1); auto.
        -- right. split; [exact A|]. intros e [He|He]; [subst e; exact A'|].
           intro K. apply (N e He). apply (calls_off_same h h1); auto.
    + intros [(pre & ev & post & E & C & N)|[A N]].
      * destruct pre as [|p pre]; inversion E; subst.
        -- right. split; [apply ON1; left; exact C|].
           intros e He K. apply (N e He). apply (calls_off_same h h1); auto.
        -- left. exists pre, ev, post. split; [reflexivity|].
           split; [apply (calls_on_same h h1); auto|].
           intros e He K. apply (N e He). apply (calls_off_same h h1); auto.
      * right. split.
        -- apply ON1. right. split; [exact A|]. apply N. left; reflexivity.
        -- intros e He K. apply (N e (or_intror He)). apply (calls_off_same h h1); auto.
Qed.

Lemma c30_exclusive h ev :
  layered (fst ev) -> (forall c, in_effect h (snd ev) c -> ordered_controls c) ->
  ~ (calls_on h ev /\ calls_off h ev).
Proof.
  intros (T & ET & Mono) Ord [(c & x & I & Rx & Lx) (c' & y & I' & Ry & Ly)].
  pose proof (proj1 I) as Hh.
  pose proof (proj1 (in_effect_iff h _ c Hh) I) as E1.
  pose proof (proj1 (in_effect_iff h _ c' Hh) I') as E2.
  assert (c' = c) by congruence. subst c'.
  destruct (Ord c I) as [O1 O2]. rewrite ET in Rx, Ry. inversion Rx; inversion Ry; subst.
  pose proof (Mono _ _ O1). lra.
Qed.

Lemma c30_toggle h tk hour n h' :
  (0 <= hour)%Z -> calls_on h (tk, hour) -> calls_off h (tk, hour) ->
  wh_run h (repeat (tk, hour) n) = Ok h' ->
  wh_active h' = xorb (wh_active h) (Nat.odd n).
Proof.
  intros H0. revert h. induction n as [|n IH]; intros h Con Coff R.
  - cbn in R. inversion R. cbn. rewrite xorb_false_r. reflexivity.
  - cbn [repeat] in R. destruct (wh_run_cons _ _ _ _ _ R) as (h1 & U & R1).
    destruct (wh_update_same _ _ _ _ U) as (_ & Es & Em).
    destruct (c30_step _ _ _ _ H0 U) as [Soff Son].
    rewrite (IH h1); [|apply (calls_on_same h h1); auto|apply (calls_off_same h h1); auto|exact R1].
    assert (A : wh_active h1 = negb (wh_active h)).
    { destruct (wh_active h); [apply Son|apply Soff]; auto. }
    rewrite A, Nat.odd_succ, <- Nat.negb_odd. destruct (wh_active h), (Nat.odd n); reflexivity.
Qed.

(** ** C32 *)

Lemma py_nth_nth (l : list Q) (i : nat) :
  (i < length l)%nat -> py_nth l (Z.of_nat i) = Ok (nth i l 0).
Proof.
  intro H. apply py_nth_nonneg; [lia|]. rewrite Nat2Z.id. apply nth_error_nth'. exact H.
Qed.

Lemma hp_quad_ok c x : (3 <= length c)%nat -> hp_quad c x = Ok (poly2 c x).
Proof.
  intro H. unfold hp_quad.
  pose proof (py_nth_nth c 0 ltac:(lia)) as E0. pose proof (py_nth_nth c 1 ltac:(lia)) as E1.
  pose proof (py_nth_nth c 2 ltac:(lia)) as E2.
  change (Z.of_nat 0) with 0%Z in E0. change (Z.of_nat 1) with 1%Z in E1.
  change (Z.of_nat 2) with 2%Z in E2.
  rewrite E0, E1, E2. reflexivity.
Qed.

(** The bracket found is the one that contains the temperature. *)
Definition bracket_at (oat : Q) (l : list hp_entry) (p n : hp_entry) : Prop :=
  exists pre post, l = pre ++ p :: n :: post /\ he_T p <= oat /\ (oat < he_T n \/ post = []).

Lemma hp_bracket_some l p0 oat :
  he_T p0 <= oat -> l <> [] ->
  exists p n pre post, hp_bracket oat (Some p0) l = Some (p, n) /\
    p0 :: l = pre ++ p :: n :: post /\ he_T p <= oat /\ (oat < he_T n \/ post = []).
Proof.
  revert p0. induction l as [|e r IH]; intros p0 Hp N; [congruence|].
  cbn [hp_bracket]. destruct (qltb oat (he_T e)) eqn:E; qbool.
  - exists p0, e, [], r. repeat split; auto.
  - destruct r as [|e2 r].
    + exists p0, e, [], []. repeat split; auto.
    + destruct (IH e E) as (p & n & pre & post & B & L & K); [discriminate|].
      exists p, n, (p0 :: pre), post. split; [exact B|]. split; [rewrite L; reflexivity|exact K].
Qed.

Lemma hp_bracket_ge l oat a r :
  l = a :: r -> r <> [] -> he_T a <= oat ->
  exists p n pre post, hp_bracket oat None l = Some (p, n) /\
    l = pre ++ p :: n :: post /\ he_T p <= oat /\ (oat < he_T n \/ post = []).
Proof.
  intros -> N H. cbn [hp_bracket]. destruct (qltb oat (he_T a)) eqn:E; qbool; [exfalso; lra|].
  destruct r as [|b r]; [congruence|]. apply hp_bracket_some; auto.
Qed.

Lemma increasing_app pre a b post :
  increasing (pre ++ a :: b :: post) -> he_T a < he_T b.
Proof.
  induction pre as [|x pre IH]; cbn [app].
  - intros [H _]. exact H.
  - destruct pre as [|y pre]; cbn [app] in *; intros [_ H]; auto.
Qed.

Lemma increasing_head_le l a x : increasing (a :: l) -> In x (a :: l) -> he_T a <= he_T x.
Proof.
  revert a. induction l as [|b r IH]; intros a I H.
  - destruct H as [->|[]]. lra.
  - destruct H as [->|H]; [lra|]. destruct I as [L I].
    pose proof (IH b I H). lra.
Qed.

Lemma increasing_tail pre l : increasing (pre ++ l) -> increasing l.
Proof.
  induction pre as [|x pre IH]; cbn [app]; [auto|].
  intro H. apply IH. destruct (pre ++ l) as [|y r]; [constructor|]. apply H.
Qed.

Definition line (a b : hp_entry) (ya yb oat : Q) : Q :=
  ya + (oat - he_T a) * (yb - ya) / (he_T b - he_T a).

Lemma line_blend a b ya yb oat : he_T a < he_T b -> line a b ya yb oat == blend a b ya yb oat.
Proof. intro H. unfold line, blend. field. lra. Qed.

Lemma line_at_b a b ya yb oat : he_T a < he_T b -> oat == he_T b -> line a b ya yb oat == yb.
Proof. intros H E. unfold line. rewrite E. field. lra. Qed.
Lemma line_at_a a b ya yb oat : he_T a < he_T b -> oat == he_T a -> line a b ya yb oat == ya.
Proof. intros H E. unfold line. rewrite E. field. lra. Qed.

Lemma hp_interp_ok oat a b ya yb :
  he_T a < he_T b -> hp_linear_interp oat (he_T a) (he_T b) ya yb = Ok (line a b ya yb oat).
Proof.
  intro H. unfold hp_linear_interp. rewrite qdiv_ok by lra. reflexivity.
Qed.

Lemma hp_per_unit_bracket m oat inl out p n :
  table_ok (hp_perfmap m) -> hp_bracket oat None (hp_perfmap m) = Some (p, n) ->
  (exists pre post, hp_perfmap m = pre ++ p :: n :: post) ->
  let kw := line p n (rated_kw p inl) (rated_kw n inl) oat in
  let cop := line p n (rated_cop p inl) (rated_cop n inl) oat in
  hp_per_unit m (Some oat) inl out = Ok (cop * kw * w_to_kbtuh, kw * w_to_kbtuh).
Proof.
  intros (L2 & Inc & FA) B (pre & post & EL). cbv zeta.
  pose proof (increasing_app _ _ _ _ (eq_ind _ increasing Inc _ EL)) as LT.
  assert (OKp : entry_ok p). { rewrite Forall_forall in FA. apply FA. rewrite EL. apply in_elt. }
  assert (OKn : entry_ok n).
  { rewrite Forall_forall in FA. apply FA. rewrite EL. apply in_or_app. right. right. left. reflexivity. }
  destruct OKp as [P1 P2], OKn as [N1 N2].
  unfold hp_per_unit.
  destruct (hp_perfmap m) as [|e1 [|e2 r]]; [destruct pre; discriminate|cbn in L2; lia|].
  rewrite B, !hp_quad_ok by assumption. cbn [bind].
  rewrite hp_interp_ok by exact LT. cbn [bind]. rewrite hp_interp_ok by exact LT. reflexivity.
Qed.

(** Value of a piecewise-linear curve over the table, used by every statement. *)
Lemma c32_core m oat inl out a b pre post :
  table_ok (hp_perfmap m) -> hp_perfmap m = pre ++ a :: b :: post ->
  he_T a <= oat -> (oat <= he_T b \/ post = []) ->
  exists kw cop, hp_per_unit m (Some oat) inl out = Ok (cop * kw * w_to_kbtuh, kw * w_to_kbtuh) /\
    kw == line a b (rated_kw a inl) (rated_kw b inl) oat /\
    cop == line a b (rated_cop a inl) (rated_cop b inl) oat.
Proof.
  intros T E Ha Hb. destruct T as (L2 & Inc & FA).
  destruct (hp_perfmap m) as [|f r] eqn:EL; [destruct pre; discriminate|].
  assert (Hr : r <> []) by (destruct r; [cbn in L2; lia|discriminate]).
  assert (Hf : he_T f <= oat).
  { pose proof (increasing_head_le r f a Inc) as K.
    assert (In a (f :: r)) by (rewrite E; apply in_elt). specialize (K H). lra. }
  destruct (hp_bracket_ge _ oat f r eq_refl Hr Hf) as (p & n & pre2 & post2 & B & E2 & Hp & Hn).
  assert (TO : table_ok (hp_perfmap m)) by (rewrite EL; split; auto).
  pose proof (hp_per_unit_bracket m oat inl out p n TO) as PU. rewrite EL in PU.
  specialize (PU B (ex_intro _ pre2 (ex_intro _ post2 E2))). cbv zeta in PU.
  eexists _, _. split; [exact PU|].
  (* the bracket found coincides with (a,b), or shares the point oat = T b *)
  rewrite E in E2.
  assert (Inc' : increasing (pre ++ a :: b :: post)) by (rewrite <- E; exact Inc).
  clear PU TO B EL E Inc FA L2 Hr Hf.
  assert (AB : he_T a < he_T b) by (eapply increasing_app; eauto).
  assert (PN : he_T p < he_T n) by (eapply increasing_app; rewrite <- E2; exact Inc').
  revert pre2 E2. induction pre as [|x pre IH]; intros pre2 E2.
  - destruct pre2 as [|y pre2].
    + inversion E2; subst. split; reflexivity.
    + cbn [app] in E2. injection E2 as E2a E2b. subst y.
      (* (p,n) strictly after a: p is b or later, so T b <= T p <= oat <= T b *)
      destruct pre2 as [|z pre2].
      * cbn [app] in E2b. injection E2b as -> E3. (* b = p *)
        destruct Hb as [Hb| ->]; [|discriminate].
        assert (EQ : oat == he_T p) by lra.
        split; rewrite (line_at_b a p) by auto; rewrite (line_at_a p n) by auto; reflexivity.
      * cbn [app] in E2b. injection E2b as -> E3.
        exfalso. destruct Inc' as [_ Inc'].
        destruct Hb as [Hb| ->]; [|destruct pre2; discriminate].
        rewrite E3 in Inc'.
        assert (he_T z < he_T p).
        { destruct pre2 as [|w pre2]; cbn [app] in Inc'; [apply Inc'|].
          destruct Inc' as [Lzw Inc'].
          pose proof (increasing_head_le _ w p Inc') as K.
          assert (In p (w :: pre2 ++ p :: n :: post2)) by (right; apply in_elt).
          specialize (K H). lra. }
        lra.
  - destruct pre2 as [|y pre2].
    + (* p = x earlier than a: then oat < T n <= T a contradiction, or post2=[] *)
      exfalso. cbn [app] in E2. injection E2 as -> E3.
      destruct Hn as [Hn| ->].
      * assert (he_T n <= he_T a).
        { cbn [app] in Inc'. rewrite E3 in Inc'.
          assert (In a (n :: post2)) by (rewrite <- E3; apply in_elt).
          destruct Inc' as [_ Inc']. eapply increasing_head_le; eauto. }
        lra.
      * destruct pre as [|z [|w pre]]; discriminate.
    + cbn [app] in E2. injection E2 as _ E3. apply (IH (increasing_tail [x] _ Inc') pre2 E3).
Qed.

Lemma c32_segment m units oat inl out a b pre post :
  table_ok (hp_perfmap m) -> hp_perfmap m = pre ++ a :: b :: post -> units = qz (hp_units m) ->
  he_T a <= oat -> (oat <= he_T b \/ post = []) ->
  exists kw cap,
    hp_power m (Some oat) out (Some inl) = Ok kw /\
    hp_capacity m (Some oat) out (Some inl) = Ok cap /\
    kw == units * blend a b (rated_kw a inl) (rated_kw b inl) oat /\
    cap == kw * w_to_kbtuh * blend a b (rated_cop a inl) (rated_cop b inl) oat.
Proof.
  intros T E U Ha Hb.
  pose proof (increasing_app _ _ _ _ (eq_ind _ increasing (proj1 (proj2 T)) _ E)) as AB.
  destruct (c32_core m oat inl out a b pre post T E Ha Hb) as (kw & cop & PU & Ek & Ec).
  rewrite line_blend in Ek, Ec by exact AB.
  exists (kw * w_to_kbtuh / w_to_kbtuh * units), (cop * kw * w_to_kbtuh * units).
  unfold hp_power, hp_capacity. rewrite PU. cbn [bind fst snd].
  rewrite U. repeat split.
  - rewrite <- Ek. change w_to_kbtuh with (3412142 # 1000000). field.
  - rewrite <- Ec. change w_to_kbtuh with (3412142 # 1000000). field.
Qed.

Lemma blend_between a b ya yb oat lo hi :
  he_T a < he_T b -> he_T a <= oat -> oat <= he_T b ->
  lo <= ya -> lo <= yb -> ya <= hi -> yb <= hi ->
  lo <= blend a b ya yb oat /\ blend a b ya yb oat <= hi.
Proof.
  intros AB Ha Hb. unfold blend.
  set (s := (he_T b - oat) / (he_T b - he_T a)). set (t := (oat - he_T a) / (he_T b - he_T a)).
  assert (Es : s + t == 1) by (unfold s, t; field; lra).
  assert (0 <= s) by (unfold s; apply qdiv_nonneg; lra).
  assert (0 <= t) by (unfold t; apply qdiv_nonneg; lra).
  intros. split; nra.
Qed.

Lemma blend_at_a a b ya yb oat : he_T a < he_T b -> oat == he_T a -> blend a b ya yb oat == ya.
Proof. intros H E. unfold blend. rewrite E. field. lra. Qed.
Lemma blend_at_b a b ya yb oat : he_T a < he_T b -> oat == he_T b -> blend a b ya yb oat == yb.
Proof. intros H E. unfold blend. rewrite E. field. lra. Qed.

Lemma c32_exact m oat inl out e :
  table_ok (hp_perfmap m) -> In e (hp_perfmap m) -> oat == he_T e ->
  exists kw cap,
    hp_power m (Some oat) out (Some inl) = Ok kw /\
    hp_capacity m (Some oat) out (Some inl) = Ok cap /\
    kw == qz (hp_units m) * rated_kw e inl /\
    cap == kw * w_to_kbtuh * rated_cop e inl.
Proof.
  intros T I E. destruct (in_split _ _ I) as (pre & post & EL).
  destruct post as [|b post].
  - (* last entry: take the pair before it *)
    destruct (exists_last (l := pre)) as (pre' & a & EP).
    { intros ->. destruct T as (L2 & _). rewrite EL in L2. cbn in L2. lia. }
    rewrite EP, <- app_assoc in EL. cbn [app] in EL.
    pose proof (increasing_app _ _ _ _ (eq_ind _ increasing (proj1 (proj2 T)) _ EL)) as AB.
    destruct (c32_segment m _ oat inl out a e pre' [] T EL eq_refl) as (kw & cap & K1 & K2 & K3 & K4);
      [lra|auto|].
    exists kw, cap. rewrite blend_at_b in K3, K4 by auto. auto.
  - pose proof (increasing_app _ _ _ _ (eq_ind _ increasing (proj1 (proj2 T)) _ EL)) as AB.
    destruct (c32_segment m _ oat inl out e b pre post T EL eq_refl) as (kw & cap & K1 & K2 & K3 & K4);
      [lra|left; lra|].
    exists kw, cap. rewrite blend_at_a in K3, K4 by auto. auto.
Qed.

Lemma c32_below m oat inl out e r nominal :
  hp_perfmap m = e :: r -> r <> [] -> oat < he_T e ->
  hp_nominal m = Some nominal -> hp_units m <> 0%Z ->
  exists kw cap,
    hp_power m (Some oat) out inl = Ok kw /\
    hp_capacity m (Some oat) out inl = Ok cap /\
    cap == nominal /\ cap == kw * w_to_kbtuh.
Proof.
  intros EL Nr Ho En Un.
  assert (U : ~ qz (hp_units m) == 0).
  { unfold qz. change 0 with (inject_Z 0). rewrite inject_Z_injective. exact Un. }
  assert (PU : forall i, hp_per_unit m (Some oat) i out =
    Ok (nominal / qz (hp_units m), nominal / qz (hp_units m))).
  { intro i. unfold hp_per_unit. rewrite EL. destruct r as [|e2 r]; [congruence|].
    cbn [hp_bracket]. destruct (qltb oat (he_T e)) eqn:B; qbool; [|exfalso; lra].
    unfold hp_er_per_unit. rewrite En, qdiv_ok by exact U. reflexivity. }
  unfold hp_power, hp_capacity. rewrite PU. cbn [bind fst snd].
  eexists _, _. split; [reflexivity|]. split; [reflexivity|].
  change w_to_kbtuh with (3412142 # 1000000). split; field; exact U.
Qed.

(** Below the table without a nominal capacity: rated output of the first bracket, COP 1. *)
Lemma c32_below_no_nominal m oat inl out e r :
  hp_perfmap m = e :: r -> r <> [] -> entry_ok e -> oat < he_T e -> hp_nominal m = None ->
  exists kw cap,
    hp_power m (Some oat) out inl = Ok kw /\
    hp_capacity m (Some oat) out inl = Ok cap /\
    cap == kw * w_to_kbtuh /\
    cap == qz (hp_units m) * qmax (qmax (rated_cop e (hp_design_inlet m)) 0 *
                                   rated_kw e (hp_design_inlet m) * w_to_kbtuh) 0.
Proof.
  intros EL Nr [E1 E2] Ho En.
  set (er := qmax (qmax (rated_cop e (hp_design_inlet m)) 0 *
                                   rated_kw e (hp_design_inlet m) * w_to_kbtuh) 0).
  assert (PU : forall i, hp_per_unit m (Some oat) i out = Ok (er, er)).
  { intro i. unfold hp_per_unit. rewrite EL. destruct r as [|e2 r]; [congruence|].
    cbn [hp_bracket]. destruct (qltb oat (he_T e)) eqn:B; qbool; [|exfalso; lra].
    unfold hp_er_per_unit. rewrite En, EL, !hp_quad_ok by assumption. reflexivity. }
  unfold hp_power, hp_capacity. rewrite PU. cbn [bind fst snd].
  eexists _, _. split; [reflexivity|]. split; [reflexivity|].
  generalize er. intro x. change w_to_kbtuh with (3412142 # 1000000). split; [field|lra].
Qed.

(** Continuity: the input power is Lipschitz in the outdoor temperature at and above the
    lowest bracket. *)
Fixpoint pw (a : hp_entry) (l : list hp_entry) (y : hp_entry -> Q) (o : Q) : Q :=
  match l with
  | [] => y a
  | b :: r => match r with
              | [] => line a b (y a) (y b) o
              | _ => if Qle_bool o (he_T b) then line a b (y a) (y b) o else pw b r y o
              end
  end.

Lemma line_lip a b ya yb o1 o2 L :
  he_T a < he_T b -> Qabs (yb - ya) <= L * (he_T b - he_T a) -> o1 <= o2 ->
  Qabs (line a b ya yb o1 - line a b ya yb o2) <= L * (o2 - o1).
Proof.
  intros AB HL H12. unfold line.
  set (k := (yb - ya) / (he_T b - he_T a)).
  assert (E : ya + (o1 - he_T a) * (yb - ya) / (he_T b - he_T a)
              - (ya + (o2 - he_T a) * (yb - ya) / (he_T b - he_T a)) == (o1 - o2) * k).
  { unfold k. field. lra. }
  rewrite E. apply Qabs_Qle_condition in HL. destruct HL as [H1 H2].
  assert (K : k * (he_T b - he_T a) == yb - ya) by (unfold k; field; lra).
  assert (K1 : k <= L). { apply (Qmult_le_r _ _ (he_T b - he_T a)); lra. }
  assert (K2 : - L <= k). { apply (Qmult_le_r _ _ (he_T b - he_T a)); lra. }
  apply Qabs_Qle_condition. split; nra.
Qed.

Lemma pw_at_start a l y o : increasing (a :: l) -> o == he_T a -> l <> [] -> pw a l y o == y a.
Proof.
  intros I E N. destruct l as [|b r]; [congruence|]. destruct I as [AB _]. cbn [pw].
  destruct r; [apply line_at_a; auto|].
  destruct (Qle_bool o (he_T b)) eqn:Q0; qbool; [apply line_at_a; auto|exfalso; lra].
Qed.

Fixpoint slopes (a : hp_entry) (l : list hp_entry) (y : hp_entry -> Q) (L : Q) : Prop :=
  match l with
  | [] => True
  | b :: r => Qabs (y b - y a) <= L * (he_T b - he_T a) /\ slopes b r y L
  end.

Lemma pw_lip l : forall a y L o1 o2,
  increasing (a :: l) -> slopes a l y L -> he_T a <= o1 -> o1 <= o2 -> 0 <= L ->
  Qabs (pw a l y o1 - pw a l y o2) <= L * (o2 - o1).
Proof.
  induction l as [|b r IH]; intros a y L o1 o2 I S H1 H12 L0.
  - cbn [pw]. assert (E : y a - y a == 0) by lra. rewrite E.
    change (Qabs 0) with 0. nra.
  - destruct I as [AB I]. destruct S as [Sa S]. cbn [pw]. destruct r as [|c r].
    { apply line_lip; auto. }
    destruct (Qle_bool o1 (he_T b)) eqn:Q1, (Qle_bool o2 (he_T b)) eqn:Q2; qbool.
    + apply line_lip; auto.
    + pose proof (line_lip a b (y a) (y b) o1 (he_T b) L AB Sa Q1) as A.
      pose proof (IH b y L (he_T b) o2 I S ltac:(lra) ltac:(lra) L0) as B.
      assert (E : pw b (c :: r) y (he_T b) == y b)
        by (apply pw_at_start; auto; [reflexivity|discriminate]).
      assert (E2 : line a b (y a) (y b) (he_T b) == y b) by (apply line_at_b; auto; reflexivity).
      set (P2 := pw b (c :: r) y o2) in *.
      assert (G : line a b (y a) (y b) o1 - P2 ==
                  (line a b (y a) (y b) o1 - line a b (y a) (y b) (he_T b))
                  + (pw b (c :: r) y (he_T b) - P2)) by lra.
      rewrite G. eapply Qle_trans; [apply Qabs_triangle|]. lra.
    + exfalso; lra.
    + apply IH; auto; lra.
Qed.

(** The curve [pw] is what the map computes. *)
Lemma pw_spec l : forall a y o pre p n post,
  increasing (a :: l) -> a :: l = pre ++ p :: n :: post -> he_T p <= o ->
  (o <= he_T n \/ post = []) ->
  pw a l y o == line p n (y p) (y n) o.
Proof.
  induction l as [|b r IH]; intros a y o pre p n post I E Hp Hn.
  - destruct pre as [|? [|? ?]]; discriminate.
  - pose proof I as Iall. destruct I as [AB I]. cbn [pw]. destruct pre as [|x pre].
    + cbn [app] in E. injection E as -> -> ->. destruct post as [|c post]; [reflexivity|].
      destruct Hn as [Hn|Hn]; [|discriminate].
      destruct (Qle_bool o (he_T n)) eqn:Q0; qbool; [reflexivity|exfalso; lra].
    + cbn [app] in E. injection E as -> E.
      assert (Hb : he_T b <= he_T p).
      { apply (increasing_head_le r b p I). rewrite E. apply in_elt. }
      assert (PN : he_T p < he_T n) by (eapply increasing_app; rewrite <- E; exact I).
      destruct r as [|c r]; [destruct pre as [|? [|? ?]]; discriminate|].
      destruct (Qle_bool o (he_T b)) eqn:Q0; qbool.
      * assert (EQ : o == he_T b) by lra.
        rewrite line_at_b by auto.
        destruct pre as [|z pre].
        -- cbn [app] in E. injection E as -> _ _. rewrite line_at_a by auto. reflexivity.
        -- exfalso. cbn [app] in E. injection E as -> E.
           assert (he_T z < he_T p).
           { rewrite E in I. destruct pre as [|w pre]; cbn [app] in I; [apply I|].
             destruct I as [Lzw I2].
             pose proof (increasing_head_le _ w p I2) as K.
             assert (In p (w :: pre ++ p :: n :: post)) by (right; apply in_elt).
             specialize (K H). lra. }
           lra.
      * apply (IH b y o pre p n post I E Hp Hn).
Qed.

Lemma slopes_mono l : forall a y L L',
  increasing (a :: l) -> L <= L' -> slopes a l y L -> slopes a l y L'.
Proof.
  induction l as [|b r IH]; intros a y L L' I H S; [exact Logic.I|].
  destruct I as [AB I]. cbn [slopes] in *. destruct S as [S1 S2]. split; [nra|].
  apply (IH b y L); auto.
Qed.

Lemma slopes_exist l : forall a y, increasing (a :: l) ->
  exists L, 0 <= L /\ slopes a l y L.
Proof.
  induction l as [|b r IH]; intros a y I.
  - exists 0. cbn. split; [lra|exact Logic.I].
  - destruct I as [AB I]. destruct (IH b y I) as (L & L0 & S).
    set (k := Qabs (y b - y a) / (he_T b - he_T a)).
    assert (K : k * (he_T b - he_T a) == Qabs (y b - y a)) by (unfold k; field; lra).
    pose proof (Qabs_nonneg (y b - y a)).
    assert (0 <= k) by (unfold k; apply qdiv_nonneg; lra).
    exists (L + k). split; [lra|]. cbn [slopes]. split; [nra|].
    apply (slopes_mono r b y L); auto; lra.
Qed.

Lemma hp_value_pw m o inl out a l :
  table_ok (hp_perfmap m) -> hp_perfmap m = a :: l -> he_T a <= o ->
  exists kw cop, hp_per_unit m (Some o) inl out = Ok (cop * kw * w_to_kbtuh, kw * w_to_kbtuh) /\
    kw == pw a l (fun e => rated_kw e inl) o /\ cop == pw a l (fun e => rated_cop e inl) o.
Proof.
  intros T E H. pose proof T as (L2 & Inc & FA). rewrite E in Inc, L2.
  assert (Nl : l <> []) by (destruct l; [cbn in L2; lia|discriminate]).
  destruct (hp_bracket_ge (a :: l) o a l eq_refl Nl H) as (p & n & pre & post & B & E2 & Hp & Hn).
  assert (Hn' : o <= he_T n \/ post = []) by (destruct Hn; [left; lra|auto]).
  rewrite <- E in E2.
  destruct (c32_core m o inl out p n pre post T E2 Hp Hn') as (kw & cop & P & K & C).
  exists kw, cop. split; [exact P|]. rewrite E in E2.
  rewrite (pw_spec l a (fun e => rated_kw e inl) o pre p n post Inc E2 Hp Hn').
  rewrite (pw_spec l a (fun e => rated_cop e inl) o pre p n post Inc E2 Hp Hn'). auto.
Qed.

(** The input power is Lipschitz in the outdoor temperature. *)
Lemma c32_power_lipschitz m inl out a l :
  table_ok (hp_perfmap m) -> hp_perfmap m = a :: l ->
  exists L, 0 <= L /\ forall o1 o2 k1 k2,
    he_T a <= o1 -> o1 <= o2 ->
    hp_power m (Some o1) out (Some inl) = Ok k1 -> hp_power m (Some o2) out (Some inl) = Ok k2 ->
    Qabs (k1 - k2) <= L * (o2 - o1).
Proof.
  intros T E. pose proof T as (_ & Inc & _). rewrite E in Inc.
  destruct (slopes_exist l a (fun e => rated_kw e inl) Inc) as (L & L0 & S).
  set (u := qz (hp_units m)).
  pose proof (Qabs_nonneg u) as U0.
  exists (Qabs u * L). split; [nra|].
  intros o1 o2 k1 k2 H1 H12 P1 P2.
  destruct (hp_value_pw m o1 inl out a l T E H1) as (w1 & c1 & V1 & K1 & _).
  destruct (hp_value_pw m o2 inl out a l T E ltac:(lra)) as (w2 & c2 & V2 & K2 & _).
  unfold hp_power in P1, P2. rewrite V1 in P1. rewrite V2 in P2.
  cbn [bind snd] in P1, P2. inversion P1 as [Q1]. inversion P2 as [Q2]. clear P1 P2 Q1 Q2.
  fold u.
  assert (G : w1 * w_to_kbtuh / w_to_kbtuh * u - w2 * w_to_kbtuh / w_to_kbtuh * u
              == u * (w1 - w2)).
  { change w_to_kbtuh with (3412142 # 1000000). field. }
  rewrite G, Qabs_Qmult, K1, K2.
  pose proof (pw_lip l a (fun e => rated_kw e inl) L o1 o2 Inc S H1 H12 L0) as LIP.
  assert (Qabs u * Qabs (pw a l (fun e => rated_kw e inl) o1 - pw a l (fun e => rated_kw e inl) o2)
          <= Qabs u * (L * (o2 - o1))).
  { rewrite (Qmult_comm (Qabs u)), (Qmult_comm (Qabs u)). apply Qmult_le_compat_r; auto. }
  lra.
Qed.

(** ** C33 *)

Lemma c33_cop p oat out inl :
  match pm_capacity p oat out inl, pm_power p oat out inl with
  | Ok (Some c), Ok (Some w) =>
      (w <= 0 -> pm_cop p oat out inl = Ok None) /\
      (0 < w -> exists x, pm_cop p oat out inl = Ok (Some x) /\ x * (w * w_to_kbtuh) == c)
  | Ok _, Ok _ => pm_cop p oat out inl = Ok None
  | Err e, _ => pm_cop p oat out inl = Err e
  | Ok _, Err e => pm_cop p oat out inl = Err e
  end.
Proof.
  unfold pm_cop.
  destruct (pm_capacity p oat out inl) as [[c|]|e]; destruct (pm_power p oat out inl) as [[w|]|e'];
    cbn [bind]; try reflexivity.
  split; intro H.
  - destruct (Qle_bool w 0) eqn:E; qbool; [reflexivity|exfalso; lra].
  - destruct (Qle_bool w 0) eqn:E; qbool; [exfalso; lra|].
    rewrite qdiv_ok by lra. cbn [bind]. eexists. split; [reflexivity|].
    change w_to_kbtuh with (3412142 # 1000000). field. lra.
Qed.

Lemma qz_nonzero n : (0 < n)%Z -> ~ qz n == 0.
Proof. intros H E. unfold qz in E. change 0 with (inject_Z 0) in E. rewrite inject_Z_injective in E. lia. Qed.


Lemma hp_er_units m :
  (exists r, forall k, (0 < k)%Z -> hp_er_per_unit (hp_with_units m k) = r) /\ hp_nominal m = None \/
  (exists c, hp_nominal m = Some c /\ forall k, (0 < k)%Z ->
     hp_er_per_unit (hp_with_units m k) = Ok (c / qz k)).
Proof.
  unfold hp_er_per_unit. cbn [hp_nominal hp_with_units hp_perfmap hp_design_inlet hp_units].
  destruct (hp_nominal m) as [c|].
  - right. exists c. split; [reflexivity|]. intros k Hk. apply qdiv_ok, qz_nonzero, Hk.
  - left. split; [|reflexivity]. eexists. intros k _. reflexivity.
Qed.

Lemma hp_per_unit_units m oat i o :
  (exists r, forall k, (0 < k)%Z -> hp_per_unit (hp_with_units m k) oat i o = r) \/
  (exists c, hp_nominal m = Some c /\ forall k, (0 < k)%Z ->
     hp_per_unit (hp_with_units m k) oat i o = Ok (c / qz k, c / qz k)).
Proof.
  unfold hp_per_unit. cbn [hp_perfmap hp_with_units hp_multipass].
  destruct oat as [oat|]; [|left; eexists; intros; reflexivity].
  assert (ER : (exists r, forall k, (0 < k)%Z ->
        (do er <- hp_er_per_unit (hp_with_units m k); Ok (er, er)) = r) \/
     (exists c, hp_nominal m = Some c /\ forall k, (0 < k)%Z ->
        (do er <- hp_er_per_unit (hp_with_units m k); Ok (er, er)) = Ok (c / qz k, c / qz k))).
  { destruct (hp_er_units m) as [[(r & H) _]|(c & N & H)].
    - left. exists (do er <- r; Ok (er, er)). intros k Hk. rewrite (H k Hk). reflexivity.
    - right. exists c. split; [exact N|]. intros k Hk. rewrite (H k Hk). reflexivity. }
  destruct (hp_perfmap m) as [|e [|e2 r]]; [exact ER|left; eexists; intros; reflexivity|].
  destruct (hp_bracket oat None (e :: e2 :: r)) as [[p n]|]; [left; eexists; intros; reflexivity|].
  exact ER.
Qed.

Lemma c33_hp_units m oat out inl :
  (forall k, (0 < k)%Z ->
     res_eq (hp_capacity (hp_with_units m k) oat out inl)
            (do x <- hp_capacity (hp_with_units m 1) oat out inl; Ok (qz k * x)) /\
     res_eq (hp_power (hp_with_units m k) oat out inl)
            (do x <- hp_power (hp_with_units m 1) oat out inl; Ok (qz k * x))) \/
  (exists c, hp_nominal m = Some c /\ forall k, (0 < k)%Z ->
     res_eq (hp_capacity (hp_with_units m k) oat out inl) (Ok c) /\
     res_eq (hp_power (hp_with_units m k) oat out inl) (Ok (c / w_to_kbtuh))).
Proof.
  unfold hp_capacity, hp_power. cbn [hp_design_inlet hp_with_units hp_units].
  set (i := match inl with Some x => x | None => hp_design_inlet m end).
  destruct (hp_per_unit_units m oat i out) as [(r & H)|(c & N & H)].
  - left. intros k Hk. fold (hp_with_units m k). fold (hp_with_units m 1).
    rewrite (H k Hk), (H 1%Z) by lia. destruct r as [[a b]|e]; cbn [bind fst snd res_eq]; [|auto].
    change (qz 1) with 1. split; lra.
  - right. exists c. split; [exact N|]. intros k Hk. rewrite (H k Hk).
    cbn [bind fst snd res_eq]. pose proof (qz_nonzero k Hk).
    change w_to_kbtuh with (3412142 # 1000000). split; field; auto.
Qed.

Lemma pk_per_unit_units m oat i o :
  (exists r, forall k, (0 < k)%Z -> pk_per_unit (pk_with_units m k) oat i o = r) \/
  (exists c d, pk_nominal m = Some c /\ (d = 1 \/ d = 3 # 2) /\ forall k, (0 < k)%Z ->
     exists y, pk_per_unit (pk_with_units m k) oat i o = Ok (c / qz k / w_to_kbtuh, y) /\
               y == c / qz k / w_to_kbtuh / d).
Proof.
  unfold pk_per_unit. destruct oat as [oat|]; [|left; eexists; intros; reflexivity].
  change (forall k, pk_oat_max (pk_with_units m k) = pk_oat_max m) with
    (forall k : Z, pk_oat_max m = pk_oat_max m).
  assert (EM : forall k, pk_oat_max (pk_with_units m k) = pk_oat_max m) by reflexivity.
  assert (EN : forall k, pk_oat_min (pk_with_units m k) = pk_oat_min m) by reflexivity.
  assert (ERaw : forall k a b c, pk_raw (pk_with_units m k) a b c = pk_raw m a b c) by reflexivity.
  assert (EF : forall k a b c, pk_force_closest (pk_with_units m k) a b c = pk_force_closest m a b c)
    by reflexivity.
  assert (EO : forall k, pk_out_high (pk_with_units m k) = pk_out_high m) by reflexivity.
  assert (EI : forall k, pk_in_high (pk_with_units m k) = pk_in_high m) by reflexivity.
  destruct (pk_oat_max m) as [omax|e] eqn:E1.
  2:{ left. exists (Err e). intros k _. rewrite EM. reflexivity. }
  destruct (Qle_bool omax oat) eqn:E2.
  { left. exists (Ok (pk_out_high m, pk_in_high m)). intros k _. rewrite EM. cbn [bind]. rewrite E2.
    reflexivity. }
  destruct (pk_raw m i o oat) as [p|] eqn:E3.
  { left. exists (Ok p). intros k _. rewrite EM. cbn [bind]. rewrite E2, ERaw, E3. reflexivity. }
  destruct (pk_oat_min m) as [omin|e] eqn:E4.
  2:{ left. exists (Err e). intros k _. rewrite EM. cbn [bind]. rewrite E2, ERaw, E3, EN. reflexivity. }
  destruct (qltb oat omin) eqn:E5.
  - destruct (pk_nominal m) as [c|] eqn:EC.
    + right. exists c, 1. split; [reflexivity|]. split; [auto|]. intros k Hk.
      eexists. split.
      * rewrite EM. cbn [bind]. rewrite E2, ERaw, E3, EN. cbn [bind]. rewrite E5.
        unfold pk_er_per_unit. cbn [pk_nominal pk_with_units pk_units]. rewrite EC.
        rewrite qdiv_ok by (apply qz_nonzero; exact Hk). reflexivity.
      * pose proof (qz_nonzero k Hk). change w_to_kbtuh with (3412142 # 1000000). field. exact H.
    + left. exists (Ok (pk_out_low m, pk_out_low m)). intros k _.
      rewrite EM. cbn [bind]. rewrite E2, ERaw, E3, EN. cbn [bind]. rewrite E5.
      unfold pk_er_per_unit. cbn [pk_nominal pk_with_units pk_units]. rewrite EC. reflexivity.
  - destruct (pk_force_closest m i o oat) as [[p|]|e] eqn:E6.
    + left. exists (Ok p). intros k _. rewrite EM. cbn [bind]. rewrite E2, ERaw, E3, EN. cbn [bind].
      rewrite E5, EF, E6. reflexivity.
    + destruct (pk_nominal m) as [c|] eqn:EC.
      * right. exists c, (3 # 2). split; [reflexivity|]. split; [auto|]. intros k Hk.
        eexists. split.
        -- rewrite EM. cbn [bind]. rewrite E2, ERaw, E3, EN. cbn [bind]. rewrite E5, EF, E6. cbn [bind].
           unfold pk_er_per_unit. cbn [pk_nominal pk_with_units pk_units]. rewrite EC.
           rewrite qdiv_ok by (apply qz_nonzero; exact Hk). reflexivity.
        -- reflexivity.
      * left. exists (Ok (pk_out_low m, pk_out_low m / (3 # 2))). intros k _.
        rewrite EM. cbn [bind]. rewrite E2, ERaw, E3, EN. cbn [bind]. rewrite E5, EF, E6. cbn [bind].
        unfold pk_er_per_unit. cbn [pk_nominal pk_with_units pk_units]. rewrite EC. reflexivity.
    + left. exists (Err e). intros k _. rewrite EM. cbn [bind]. rewrite E2, ERaw, E3, EN. cbn [bind].
      rewrite E5, EF, E6. reflexivity.
Qed.

Lemma c33_pk_units m oat out inl :
  (forall k, (0 < k)%Z ->
     res_eq (pk_capacity (pk_with_units m k) oat out inl)
            (do x <- pk_capacity (pk_with_units m 1) oat out inl; Ok (qz k * x)) /\
     res_eq (pk_power (pk_with_units m k) oat out inl)
            (do x <- pk_power (pk_with_units m 1) oat out inl; Ok (qz k * x))) \/
  (exists c d, pk_nominal m = Some c /\ (d = 1 \/ d = 3 # 2) /\ forall k, (0 < k)%Z ->
     res_eq (pk_capacity (pk_with_units m k) oat out inl) (Ok c) /\
     res_eq (pk_power (pk_with_units m k) oat out inl) (Ok (c / w_to_kbtuh / d))).
Proof.
  unfold pk_capacity, pk_power.
  assert (ER : forall k, pk_resolve (pk_with_units m k) out inl = pk_resolve m out inl) by reflexivity.
  assert (EU : forall k, pk_units (pk_with_units m k) = k) by reflexivity.
  destruct (pk_resolve m out inl) as [i o] eqn:R.
  destruct (pk_per_unit_units m oat i o) as [(r & H)|(c & d & N & D & H)].
  - left. intros k Hk. rewrite !ER, (H k Hk), (H 1%Z) by lia. rewrite !EU.
    destruct r as [[a b]|e]; cbn [bind fst snd res_eq]; [|auto].
    change (qz 1) with 1. split; lra.
  - right. exists c, d. split; [exact N|]. split; [exact D|]. intros k Hk.
    rewrite !ER. destruct (H k Hk) as (y & -> & Ey). rewrite !EU.
    cbn [bind fst snd res_eq]. rewrite Ey. pose proof (qz_nonzero k Hk).
    change w_to_kbtuh with (3412142 # 1000000).
    assert (~ d == 0) by (destruct D as [-> | ->]; lra).
    split; field; auto.
Qed.

(** ** C34 *)

(** The scan returns the running best unless something strictly nearer follows. *)
Lemma pk_scan_spec l : forall x best idx i,
  (0 <= i)%Z ->
  (pk_scan x best idx i l = idx /\ forall z, In z l -> best <= Qabs (z - x)) \/
  (exists j y, pk_scan x best idx i l = (i + Z.of_nat j)%Z /\ nth_error l j = Some y /\
     Qabs (y - x) < best /\ forall z, In z l -> Qabs (y - x) <= Qabs (z - x)).
Proof.
  induction l as [|a r IH]; intros x best idx i Hi.
  - left. split; [reflexivity|]. intros z [].
  - cbn [pk_scan]. destruct (qltb (Qabs (a - x)) best) eqn:E; qbool.
    + right. destruct (IH x (Qabs (a - x)) i (i + 1)%Z ltac:(lia)) as [[Sc K]|(j & y & Sc & Ny & L & K)].
      * exists 0%nat, a. rewrite Sc. split; [cbn; lia|]. split; [reflexivity|]. split; [exact E|].
        intros z [->|Hz]; [lra|]. apply K; exact Hz.
      * exists (S j), y. rewrite Sc. split; [lia|]. split; [exact Ny|]. split; [lra|].
        intros z [->|Hz]; [lra|]. apply K; exact Hz.
    + destruct (IH x best idx (i + 1)%Z ltac:(lia)) as [[Sc K]|(j & y & Sc & Ny & L & K)].
      * left. split; [exact Sc|]. intros z [->|Hz]; [exact E|apply K; exact Hz].
      * right. exists (S j), y. rewrite Sc. split; [lia|]. split; [exact Ny|]. split; [exact L|].
        intros z [->|Hz]; [lra|]. apply K; exact Hz.
Qed.

Lemma c34_oat m oat :
  pk_oats m <> [] ->
  exists i x, pk_idx_nearest_oat m oat = Ok i /\ py_nth (pk_oats m) i = Ok x /\
    nearest (pk_oats m) oat x.
Proof.
  intro N. unfold pk_idx_nearest_oat. destruct (pk_oats m) as [|y r] eqn:E; [congruence|].
  destruct (pk_scan_spec r oat (Qabs (y - oat)) 0 1 ltac:(lia)) as [[Sc K]|(j & z & Sc & Nz & L & K)].
  - eexists _, y. split; [reflexivity|]. rewrite Sc. split; [reflexivity|].
    split; [left; reflexivity|]. intros w [->|Hw]; [lra|apply K; exact Hw].
  - eexists _, z. split; [reflexivity|]. rewrite Sc. split.
    + apply py_nth_nonneg; [lia|]. replace (Z.to_nat (1 + Z.of_nat j)) with (S j) by lia. exact Nz.
    + split; [right; eapply nth_error_In; eauto|]. intros w [->|Hw]; [lra|apply K; exact Hw].
Qed.

Lemma pk_scan_inlet_spec l : forall x best idx i,
  (0 <= i)%Z ->
  (pk_scan_inlet x best idx i l = idx /\
     forall z, In z l -> x <= fst z -> best <= Qabs (fst z - x)) \/
  (exists j y, pk_scan_inlet x best idx i l = (i + Z.of_nat j)%Z /\ nth_error l j = Some y /\
     x <= fst y /\ Qabs (fst y - x) < best /\
     forall z, In z l -> x <= fst z -> Qabs (fst y - x) <= Qabs (fst z - x)).
Proof.
  induction l as [|[a o] r IH]; intros x best idx i Hi.
  - left. split; [reflexivity|]. intros z [].
  - cbn [pk_scan_inlet]. destruct (qltb (Qabs (a - x)) best && Qle_bool x a)%bool eqn:E.
    + apply andb_true_iff in E. destruct E as [E1 E2]. qbool.
      right. destruct (IH x (Qabs (a - x)) i (i + 1)%Z ltac:(lia)) as [[Sc K]|(j & y & Sc & Ny & G & L & K)].
      * exists 0%nat, (a, o). rewrite Sc. split; [cbn; lia|]. split; [reflexivity|].
        split; [exact E2|]. split; [exact E1|].
        intros z [<-|Hz] Hx; [cbn [fst]; lra|]. apply K; assumption.
      * exists (S j), y. rewrite Sc. split; [lia|]. split; [exact Ny|]. split; [exact G|]. split; [lra|].
        intros z [<-|Hz] Hx; [cbn [fst]; lra|]. apply K; assumption.
    + apply andb_false_iff in E.
      destruct (IH x best idx (i + 1)%Z ltac:(lia)) as [[Sc K]|(j & y & Sc & Ny & G & L & K)].
      * left. split; [exact Sc|]. intros z [<-|Hz] Hx; [|apply K; assumption].
        cbn [fst] in *. destruct E as [E|E]; qbool; [exact E|exfalso; lra].
      * right. exists (S j), y. rewrite Sc. split; [lia|]. split; [exact Ny|]. split; [exact G|].
        split; [exact L|]. intros z [<-|Hz] Hx; [|apply K; assumption].
        cbn [fst] in *. destruct E as [E|E]; qbool; [lra|exfalso; lra].
Qed.

(** Snapped inlet: the last tabulated one, or the nearest of those at or above the request. *)
Lemma c34_inlet m oi x entries :
  py_nth (pk_grid m) oi = Ok entries -> entries <> [] ->
  exists ii e, pk_idx_nearest_inlet m oi x = Ok ii /\ py_nth entries ii = Ok e /\
    let lst := last (map fst entries) 0 in
    ((forall z, In z (map fst entries) -> x <= z -> Qabs (lst - x) <= Qabs (z - x)) ->
       fst e = lst) /\
    ((exists z, In z (map fst entries) /\ x <= z /\ Qabs (z - x) < Qabs (lst - x)) ->
       x <= fst e /\ In (fst e) (map fst entries) /\
       forall z, In z (map fst entries) -> x <= z -> Qabs (fst e - x) <= Qabs (z - x)).
Proof.
  intros E N. unfold pk_idx_nearest_inlet. rewrite E. cbn [bind].
  rewrite (py_nth_last entries (0, []) N). cbn [bind].
  assert (EL : last (map fst entries) 0 = fst (last entries (0, []))).
  { clear E. induction entries as [|a [|b r] IH]; [congruence|reflexivity|].
    cbn [map]. cbn [map] in IH. change (last (fst a :: fst b :: map fst r) 0) with (last (fst b :: map fst r) 0).
    change (last (a :: b :: r) (0, [])) with (last (b :: r) (0, [])). apply IH. discriminate. }
  cbv zeta. rewrite EL.
  destruct (pk_scan_inlet_spec entries x (Qabs (fst (last entries (0, [])) - x)) (-1) 0 ltac:(lia))
    as [[Sc K]|(j & y & Sc & Ny & G & L & K)]; rewrite Sc.
  - exists (-1)%Z, (last entries (0, [])). split; [reflexivity|]. split; [apply py_nth_last; exact N|].
    split; [reflexivity|]. intros (z & Hz & Hx & Lz). exfalso.
    apply in_map_iff in Hz. destruct Hz as (w & <- & Hw). pose proof (K w Hw Hx). lra.
  - exists (Z.of_nat j), y. split; [cbn; f_equal; lia|]. split.
    + apply py_nth_nonneg; [lia|]. rewrite Nat2Z.id. exact Ny.
    + pose proof (nth_error_In _ _ Ny) as Iy. split.
      * intro H. exfalso. pose proof (H (fst y) (in_map fst _ _ Iy) G). lra.
      * intros _. split; [exact G|]. split; [apply in_map; exact Iy|].
        intros z Hz Hx. apply in_map_iff in Hz. destruct Hz as (w & <- & Hw). apply K; auto.
Qed.

(** Snapped outlet: the nearest tabulated one if some tabulated outlet is nearer to the request
    than the lowest tabulated OUTDOOR temperature is; otherwise the first tabulated one. *)
Lemma c34_outlet m oi ii out entries e o0 rest_oats :
  py_nth (pk_grid m) oi = Ok entries -> py_nth entries ii = Ok e -> snd e <> [] ->
  pk_oats m = o0 :: rest_oats ->
  exists x, pk_nearest_outlet m oi ii out = Ok x /\ In x (snd e) /\
    ((exists z, In z (snd e) /\ Qabs (z - out) < Qabs (o0 - out)) -> nearest (snd e) out x) /\
    ((forall z, In z (snd e) -> Qabs (o0 - out) <= Qabs (z - out)) -> hd_error (snd e) = Some x).
Proof.
  intros E1 E2 N E3. unfold pk_nearest_outlet. rewrite E1. cbn [bind]. rewrite E2. cbn [bind].
  rewrite E3. change (py_nth (o0 :: rest_oats) 0) with (Ok o0). cbn [bind].
  destruct (pk_scan_spec (snd e) out (Qabs (o0 - out)) 0 0 ltac:(lia)) as [[Sc K]|(j & z & Sc & Nz & L & K)];
    rewrite Sc.
  - destruct (snd e) as [|a r] eqn:EE; [congruence|]. exists a. split; [reflexivity|].
    split; [left; reflexivity|]. split; [|reflexivity].
    intros (z & Hz & Lz). exfalso. pose proof (K z Hz). lra.
  - exists z. split.
    + apply py_nth_nonneg; [lia|]. replace (Z.to_nat (0 + Z.of_nat j)) with j by lia. exact Nz.
    + pose proof (nth_error_In _ _ Nz) as Iz. split; [exact Iz|]. split.
      * intros _. split; auto.
      * intros H. exfalso. pose proof (H z Iz). lra.
Qed.

(** Where an in-range lookup that the interpolator cannot answer gets its numbers from. *)
Lemma c34_fallback m oat inl out o i omin omax :
  pk_oat_min m = Ok omin -> pk_oat_max m = Ok omax -> omin <= oat -> oat < omax ->
  pk_raw m inl out oat = None ->
  pk_per_unit m (Some oat) inl out = Ok (o, i) ->
  (exists soat sinl, nearest (pk_oats m) oat soat /\
     (exists entries, In entries (pk_grid m) /\ In sinl (map fst entries)) /\
     (pk_raw m sinl out soat = Some (o, i) \/
      exists sout o0 i0,
        (exists entries e, In entries (pk_grid m) /\ In e entries /\ fst e = sinl /\ In sout (snd e)) /\
        pk_raw m sinl sout soat = Some (o0, i0) /\
        o - o0 == i - i0 /\
        (sout < out /\ sinl < out -> o == o0 * (1 + (out - sout) / (out - sinl))) /\
        (~ (sout < out /\ sinl < out) -> o = o0))) \/
  (exists er, pk_er_per_unit m = Ok er /\ o = er /\ i == er / (3 # 2)).
Proof.
  intros Em EM H1 H2 ER P. unfold pk_per_unit in P. rewrite EM in P. cbn [bind] in P.
  destruct (Qle_bool omax oat) eqn:B1; qbool; [exfalso; lra|]. rewrite ER, Em in P. cbn [bind] in P.
  destruct (qltb oat omin) eqn:B2; qbool; [exfalso; lra|].
  destruct (bind_ok _ _ _ P) as (r & EF & K). clear P.
  destruct r as [p|].
  2:{ right. destruct (bind_ok _ _ _ K) as (er & Eer & Eo). inversion Eo; subst.
      exists o. repeat split; auto. }
  left. inversion K; subst p. clear K. unfold pk_force_closest in EF.
  assert (NE : pk_oats m <> []).
  { intro C. unfold pk_oat_min in Em. rewrite C in Em. discriminate. }
  destruct (c34_oat m oat NE) as (oi & soat & Eoi & Esoat & Near). rewrite Eoi in EF. cbn [bind] in EF.
  destruct (pk_idx_nearest_inlet m oi inl) as [ii|e]; [|discriminate].
  rewrite Esoat in EF. cbn [bind] in EF.
  destruct (bind_ok _ _ _ EF) as (entries & Een & EF1). clear EF.
  destruct (bind_ok _ _ _ EF1) as (e & Ee & EF2). clear EF1. cbv zeta in EF2.
  exists soat, (fst e). split; [exact Near|].
  pose proof (py_nth_in _ _ _ Een) as I1. pose proof (py_nth_in _ _ _ Ee) as I2.
  split; [exists entries; split; [exact I1|apply in_map; exact I2]|].
  destruct (pk_raw m (fst e) out soat) as [p|] eqn:ER1.
  { left. inversion EF2; subst. reflexivity. }
  right. destruct (bind_ok _ _ _ EF2) as (sout & Eso & EF3). clear EF2.
  destruct (pk_raw m (fst e) sout soat) as [[o0 i0]|] eqn:ER2; [|discriminate].
  exists sout, o0, i0. split.
  { exists entries, e. repeat split; auto. unfold pk_nearest_outlet in Eso. rewrite Een in Eso.
    cbn [bind] in Eso. rewrite Ee in Eso. cbn [bind] in Eso.
    destruct (bind_ok _ _ _ Eso) as (z & _ & Eso2). eapply py_nth_in; eauto. }
  split; [exact ER2|].
  destruct (qltb sout out && qltb (fst e) out)%bool eqn:B; inversion EF3; subst; clear EF3.
  - apply andb_true_iff in B. destruct B as [B3 B4]. qbool. split; [lra|]. split.
    + intros _. field. lra.
    + intro C. exfalso. tauto.
  - split; [lra|]. split; [|reflexivity]. intros [C1 C2]. exfalso.
    apply andb_false_iff in B. destruct B as [B|B]; qbool; lra.
Qed.

(** ** C31 *)

Lemma c31_output h oat out inl :
  (wh_active h = false -> wh_output h oat out inl = Ok 0) /\
  (wh_active h = true ->
     (forall c, wh_capacity h oat out inl = Ok (Some c) -> wh_output h oat out inl = Ok c) /\
     (wh_capacity h oat out inl = Ok None -> wh_output h oat out inl = Ok 0) /\
     (forall e, wh_capacity h oat out inl = Err e -> wh_output h oat out inl = Err e)).
Proof.
  unfold wh_output. split; intro A; rewrite A; cbn [negb]; [reflexivity|].
  split; [|split].
  - intros c E. rewrite E. reflexivity.
  - intro E. rewrite E. reflexivity.
  - intros e E. rewrite E. reflexivity.
Qed.
