(** Lemmas for C40-C42: restoration and the sizing curves. *)
From Verif Require Import Prelude M_StratifiedTank M_Building M_Heater M_Sizing S_Sizing L_Sizing L_Sizing3 L_Heater L_Building.
Open Scope Q_scope.

(** ** Restoration *)
Lemma dh_set_run_same s : dh_set_run s (dh_run s) = s.
Proof. destruct s; reflexivity. Qed.
Lemma dh_set_run_twice s a b : dh_set_run (dh_set_run s a) b = dh_set_run s b.
Proof. reflexivity. Qed.

Lemma size_fields K lib s b sched m slope fract s' b' out :
  dhw_size K lib s b sched m slope fract = (s', b', out) ->
  dh_run s' = dh_run s /\ dh_supply s' = dh_supply s /\ dh_storage s' = dh_storage s /\ dh_defrost s' = dh_defrost s.
Proof.
  unfold dhw_size. destruct (if bd_is_annual b then bd_set_daily lib b else Ok b) as [b1|e].
  2:{ intro H. inversion H; subst. auto. }
  destruct (size_try K (cap_run s sched m) b1 sched m slope fract) as [s2 o] eqn:E.
  assert (F : dh_supply s2 = dh_supply s /\ dh_storage s2 = dh_storage s /\ dh_defrost s2 = dh_defrost s).
  { destruct (cap_run_fields s sched m) as (A & B & C).
    unfold size_try in E. destruct (size_values _ _ _ _ _ _ _) as [[c st]|e]; inversion E; subst; cbn; auto. }
  intro H. assert (S' : s' = dh_set_run s2 (dh_run s)).
  { destruct o; [destruct (bd_is_annual b); [destruct (bd_set_annual lib b1)|]|]; inversion H; reflexivity. }
  subst s'. cbn. tauto.
Qed.

Lemma size_daily_building K lib s b sched m slope fract s' b' out :
  bd_is_annual b = false -> dhw_size K lib s b sched m slope fract = (s', b', out) -> b' = b.
Proof.
  unfold dhw_size. intros A. rewrite A.
  destruct (size_try K (cap_run s sched m) b sched m slope fract) as [s2 [w|e]]; intro H; inversion H; reflexivity.
Qed.

Lemma daily_then_annual lib b b1 :
  library_annual lib b -> bd_set_daily lib b = Ok b1 -> bd_set_annual lib b1 = Ok b.
Proof.
  intros (f & E1 & E2 & E3) H. unfold bd_set_daily, bd_set_annual, load_file in *. rewrite E1 in *.
  destruct (negb (String.eqb (bd_type b) "multi_family")) eqn:T; [discriminate|]. cbn [bind] in *.
  destruct (sf_stream_avg f); [|discriminate]. apply ok_inj in H. subst b1. cbn. rewrite T. rewrite E2.
  destruct b as [c d p a t]. cbn in *. subst a. reflexivity.
Qed.

Lemma size_annual_success K lib s b sched m slope fract s' b' w :
  (bd_is_annual b = true -> library_annual lib b) ->
  dhw_size K lib s b sched m slope fract = (s', b', Ok w) -> b' = b.
Proof.
  intros A H. destruct (bd_is_annual b) eqn:E; [|eapply size_daily_building; eauto].
  unfold dhw_size in H. rewrite E in H.
  destruct (bd_set_daily lib b) as [b1|e] eqn:D; [|discriminate].
  rewrite (daily_then_annual _ _ _ (A eq_refl) D) in H.
  destruct (size_try K (cap_run s sched m) b1 sched m slope fract) as [s2 [x|e]]; inversion H; reflexivity.
Qed.

Lemma restore_annual_back {A} lib b b1 (out : res A) :
  (bd_is_annual b = true -> library_annual lib b) ->
  (if bd_is_annual b then bd_set_daily lib b else Ok b) = Ok b1 ->
  restore_annual lib (bd_is_annual b) b1 out = (b, out).
Proof.
  intros H E. unfold restore_annual. destruct (bd_is_annual b).
  - rewrite (daily_then_annual _ _ _ (H eq_refl) E). reflexivity.
  - apply ok_inj in E. subst. reflexivity.
Qed.

Lemma curve_loop_state K b f hs : forall s s1 out, curve_loop K s b f hs = (s1, out) -> dh_set_run s1 (dh_run s) = s.
Proof.
  assert (G : forall s s1 out r, curve_loop K s b f hs = (s1, out) -> dh_set_run s1 r = dh_set_run s r).
  { induction hs as [|h hs IH]; intros s s1 out r H; cbn [curve_loop] in H.
    - inversion H; reflexivity.
    - destruct (curve_point K (dh_set_run s h) b f) as [[[c st]|]|e]; [|inversion H; reflexivity|inversion H; reflexivity].
      destruct (curve_loop K (dh_set_run s h) b f hs) as [s2 rest] eqn:E.
      inversion H; subst. rewrite (IH _ _ _ r E). reflexivity. }
  intros s s1 out H. rewrite (G _ _ _ _ H). apply dh_set_run_same.
Qed.

Lemma curve_body_state K s b cmap slope step : fst (curve_body K s b cmap slope step) = s.
Proof.
  unfold curve_body.
  destruct (do inlet <- design_inlet b; _) as [[[f a1] a2]|e]; [|reflexivity].
  destruct (curve_loop K s b f (a1 ++ a2)) as [s1 out] eqn:E. cbn [fst]. eapply curve_loop_state; eauto.
Qed.

(** ** Monotone lists *)
Lemma sd_app l1 l2 : strictly_decreasing l1 -> strictly_decreasing l2 ->
  (forall x y, In x l1 -> In y l2 -> y < x) -> strictly_decreasing (l1 ++ l2).
Proof.
  induction l1 as [|x l1 IH]; intros A B C; [exact B|].
  destruct l1 as [|y l1].
  - destruct l2 as [|z l2]; [exact A|]. cbn. split; [apply C; left; reflexivity|exact B].
  - cbn [app] in *. destruct A as [A1 A2]. split; [exact A1|]. apply IH; auto. intros u v Hu Hv. apply C; [right; exact Hu|exact Hv].
Qed.

Lemma sd_map_seq (f : nat -> Q) n : forall a, (forall i, f (S i) < f i) -> strictly_decreasing (map f (seq a n)).
Proof.
  induction n as [|n IH]; intros a H; [exact I|]. destruct n as [|n]; [exact I|].
  cbn [seq map]. split; [apply H|]. apply (IH (S a) H).
Qed.

Lemma sd_firstn l : forall n, strictly_decreasing l -> strictly_decreasing (firstn n l).
Proof.
  induction l as [|x l IH]; intros [|n] H; try exact I.
  destruct l as [|y l]; [destruct n; exact I|]. destruct n as [|n]; [exact I|].
  destruct H as [A B]. cbn [firstn]. split; [exact A|]. apply (IH (S n) B).
Qed.

Lemma sd_to_si {A} (f g : A -> Q) l : (forall p q, In p l -> In q l -> f q < f p -> g p < g q) ->
  strictly_decreasing (map f l) -> strictly_increasing (map g l).
Proof.
  induction l as [|x l IH]; intros H S; [exact I|]. destruct l as [|y l]; [exact I|].
  cbn [map] in *. destruct S as [S1 S2]. split.
  - apply H; [left; reflexivity|right; left; reflexivity|exact S1].
  - apply IH; [intros; apply H; try right; assumption|exact S2].
Qed.

Lemma sd_to_ni {A} (f g : A -> Q) l : (forall p q, In p l -> In q l -> f q < f p -> g q <= g p) ->
  strictly_decreasing (map f l) -> non_increasing (map g l).
Proof.
  induction l as [|x l IH]; intros H S; [exact I|]. destruct l as [|y l]; [exact I|].
  cbn [map] in *. destruct S as [S1 S2]. split.
  - apply H; [left; reflexivity|right; left; reflexivity|exact S1].
  - apply IH; [intros; apply H; try right; assumption|exact S2].
Qed.

(** ** The sweep *)
Lemma arange_desc start stop step l : 0 < step -> arange start stop (- step) = Ok l ->
  strictly_decreasing l /\ (forall x, In x l -> x <= start /\ stop < x) /\
  (stop < start -> exists r, l = (start + qz 0 * - step) :: r) /\ (start <= stop -> l = []).
Proof.
  intros Hs H. unfold arange in H.
  destruct (Qeq_bool (- step) 0) eqn:Z; qbool; [lra|]. apply ok_inj in H. subst l.
  assert (EQ : (stop - start) / - step == (start - stop) / step) by (field; lra).
  set (N := Z.to_nat (Qceiling ((stop - start) / - step))).
  split; [apply sd_map_seq; intro i|].
  { rewrite Nat2Z.inj_succ. unfold qz, Z.succ. rewrite inject_Z_plus. change (inject_Z 1) with 1. lra. }
  split.
  - intros x Hx. apply in_map_iff in Hx. destruct Hx as (i & <- & Hi). apply in_seq in Hi.
    assert (I0 : 0 <= qz (Z.of_nat i)) by (change 0 with (inject_Z 0); unfold qz; rewrite <- Zle_Qle; lia).
    assert (P : 0 <= qz (Z.of_nat i) * step) by (apply Qmult_le_0_compat; lra).
    split; [lra|].
    assert (L : qz (Z.of_nat i) < (stop - start) / - step).
    { destruct (Qlt_le_dec (qz (Z.of_nat i)) ((stop - start) / - step)) as [Y|Y]; [exact Y|exfalso].
      assert (C : (Qceiling ((stop - start) / - step) <= Z.of_nat i)%Z).
      { rewrite <- (Qceiling_Z (Z.of_nat i)). apply Qceiling_resp_le. exact Y. }
      unfold N in Hi. lia. }
    rewrite EQ in L. apply qlt_div_iff in L; [|exact Hs]. lra.
  - split.
    + intro L. assert (1 <= N)%nat.
      { unfold N. assert (0 < Qceiling ((stop - start) / - step))%Z; [|lia].
        assert (P : 0 < (stop - start) / - step) by (rewrite EQ; apply qdiv_pos; lra).
        pose proof (Qle_ceiling ((stop - start) / - step)) as Q1.
        rewrite Zlt_Qlt. change (inject_Z 0) with 0. lra. }
      destruct N as [|n]; [lia|]. cbn [seq map]. eexists. reflexivity.
    + intro L. assert (N = 0)%nat; [|rewrite H; reflexivity].
      unfold N. assert (Qceiling ((stop - start) / - step) <= 0)%Z; [|lia].
      assert (P : (stop - start) / - step <= inject_Z 0).
      { rewrite EQ. apply qdiv_le_iff; [exact Hs|]. change (inject_Z 0) with 0. lra. }
      rewrite <- (Qceiling_Z 0). apply Qceiling_resp_le. exact P.
Qed.

Lemma curve_loop_points K b f hs : forall s s1 pts, curve_loop K s b f hs = (s1, Ok pts) ->
  map (fun p => fst (fst p)) pts = firstn (length pts) hs /\
  (length pts <= length hs)%nat /\
  forall h c st, In (h, c, st) pts -> curve_point K (dh_set_run s h) b f = Ok (Some (c, st)).
Proof.
  induction hs as [|h hs IH]; intros s s1 pts H; cbn [curve_loop] in H.
  - inversion H; subst. cbn. repeat split; auto; intros; contradiction.
  - destruct (curve_point K (dh_set_run s h) b f) as [[[c st]|]|e] eqn:P; [| |discriminate].
    + destruct (curve_loop K (dh_set_run s h) b f hs) as [s2 rest] eqn:E.
      destruct rest as [l|e]; [|discriminate]. cbn [bind] in H. inversion H; subst.
      destruct (IH _ _ _ E) as (A & B & C). cbn [map length firstn]. rewrite A. repeat split; try lia.
      intros h' c' st' [Q|Q].
      * inversion Q; subst. exact P.
      * apply C in Q. rewrite dh_set_run_twice in Q. exact Q.
    + inversion H; subst. cbn. repeat split; try lia; intros; contradiction.
Qed.

Lemma curve_point_inv K s b f c st : curve_point K s b f = Ok (Some (c, st)) ->
  exists rv, k_capacity K s b = Ok c /\ k_running K s b c = Ok rv /\ ~ rv == 0 /\ storage_volume rv f = Ok st.
Proof.
  unfold curve_point. intro H.
  match type of H with match ?e with _ => _ end = _ => destruct e as [o|e'] eqn:E end.
  - apply ok_inj in H. subst o.
    apply bind_ok in E. destruct E as (c' & E1 & E). apply bind_ok in E. destruct E as (rv & E2 & E).
    destruct (Qeq_bool rv 0) eqn:Z; [discriminate|]. apply bind_ok in E. destruct E as (st' & E3 & E).
    apply ok_inj in E. injection E as -> ->. exists rv. repeat split; auto. intro Q. apply Qeq_bool_iff in Q. congruence.
  - destruct e'; discriminate.
Qed.

Lemma curve_inv K lib s b cmap slope step s' b' cv :
  sizing_curve K lib s b cmap slope step = (s', b', Ok cv) ->
  exists b1 inlet f lo a1 a2 s1 pts,
    (if bd_is_annual b then bd_set_daily lib b else Ok b) = Ok b1 /\
    design_inlet b1 = Ok inlet /\ strat_factor s cmap (slope_or s slope) inlet = Ok f /\
    min_run_hr b1 = Ok lo /\ arange 24 (dh_run s) (- step) = Ok a1 /\ arange (dh_run s) lo (- step) = Ok a2 /\
    curve_loop K s b1 f (a1 ++ a2) = (s1, Ok pts) /\
    cv = mkCurve (map (fun p => fst (fst p)) pts) (map (fun p => snd (fst p)) pts) (map snd pts)
                 (Z.min (Z.of_nat (length a1)) (Z.max 0 (Z.of_nat (length pts) - 1))).
Proof.
  unfold sizing_curve. destruct (if bd_is_annual b then bd_set_daily lib b else Ok b) as [b1|e] eqn:E; [|discriminate].
  destruct (curve_body K s b1 cmap slope step) as [s2 out] eqn:B.
  intro H. assert (O : out = Ok cv).
  { unfold restore_annual in H. destruct (bd_is_annual b); [destruct (bd_set_annual lib b1)|]; inversion H; reflexivity. }
  subst out. clear H. unfold curve_body in B.
  match type of B with match ?e with _ => _ end = _ => destruct e as [[[f a1] a2]|e'] eqn:P; [|discriminate] end.
  destruct (curve_loop K s b1 f (a1 ++ a2)) as [s1 out] eqn:L.
  destruct out as [pts|e]; [|discriminate]. cbn [bind] in B.
  apply bind_ok in P. destruct P as (inlet & P1 & P).
  apply bind_ok in P. destruct P as (f' & P2 & P).
  apply bind_ok in P. destruct P as (lo & P3 & P).
  apply bind_ok in P. destruct P as (x1 & P4 & P).
  apply bind_ok in P. destruct P as (x2 & P5 & P).
  apply ok_inj in P. inversion P; subst f' x1 x2.
  exists b1, inlet, f, lo, a1, a2, s1, pts. repeat (split; [assumption || reflexivity|]).
  inversion B. reflexivity.
Qed.

(** ** Round *)
Lemma py_round_bounds x : qz (py_round x) - (1 # 2) <= x <= qz (py_round x) + (1 # 2).
Proof.
  unfold py_round. cbv zeta.
  pose proof (Qfloor_le x) as A. pose proof (Qlt_floor x) as B. rewrite inject_Z_plus in B. change (inject_Z 1) with 1 in B.
  assert (S1 : qz (Qfloor x + 1) == qz (Qfloor x) + 1) by (unfold qz; rewrite inject_Z_plus; reflexivity).
  fold (qz (Qfloor x)) in A, B.
  destruct (qltb (x - qz (Qfloor x)) (1 # 2)) eqn:E; qbool; [lra|].
  destruct (qltb (1 # 2) (x - qz (Qfloor x))) eqn:F; qbool; [lra|].
  destruct (Z.even (Qfloor x)); lra.
Qed.

Lemma py_round_int z x : x == qz z -> py_round x = z.
Proof.
  intro H. pose proof (py_round_bounds x) as [A B].
  destruct (Z.lt_trichotomy (py_round x) z) as [L|[L|L]]; [|exact L|].
  - assert (C : qz (py_round x) + 1 <= qz z).
    { unfold qz. change 1 with (inject_Z 1). rewrite <- inject_Z_plus, <- Zle_Qle. lia. } lra.
  - assert (C : qz z + 1 <= qz (py_round x)).
    { unfold qz. change 1 with (inject_Z 1). rewrite <- inject_Z_plus, <- Zle_Qle. lia. } lra.
Qed.
