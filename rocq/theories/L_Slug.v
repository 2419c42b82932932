(** Facts about the slug overlay tank. *)
From Verif Require Import Prelude S_Integral L_Integral L_Ramp M_StratifiedTank M_EnergyTank S_EnergyTank L_EnergyTank.
Open Scope Q_scope.

(** ** Trivial transitions *)
Lemma sl_activate_active t s : sl_active t = true -> sl_activate t s = Ok t.
Proof. intros H. unfold sl_activate; cbv zeta. rewrite H. reflexivity. Qed.
Lemma sl_deactivate_inactive t : sl_active t = false -> sl_deactivate t = Ok t.
Proof. intros H. unfold sl_deactivate; cbv zeta. rewrite H. reflexivity. Qed.
Lemma sl_add_inactive t g c : sl_active t = false -> sl_add t g c = Ok t.
Proof. intros H. unfold sl_add. rewrite H. reflexivity. Qed.
Lemma sl_heat_inactive t k d : sl_active t = false -> sl_heat t k d = Ok t.
Proof. intros H. unfold sl_heat. rewrite H. reflexivity. Qed.

(** ** Mixing rule and heating *)
Lemma sl_top_of_ok b v : 0 < en_vol b -> sl_top_of b v = Ok (en_cold_pct b + v / en_vol b * 100).
Proof.
  intros H. unfold sl_top_of. destruct (qltb 0 (en_vol b)) eqn:E; qbool; [|lra].
  rewrite qdiv_ok by lra. reflexivity.
Qed.

Lemma sl_add_ok t g c : 0 < en_vol (sl_base t) -> sl_active t = true -> 0 <= sl_vol t -> 0 < g ->
  exists t', sl_add t g c = Ok t' /\ sl_base t' = sl_base t /\ sl_active t' = true /\
    sl_max t' = sl_max t /\ sl_orig t' = sl_orig t /\ sl_pu t' = sl_pu t /\ sl_supply t' = sl_supply t /\
    sl_vol t' == sl_vol t + g /\ sl_vol t' * sl_temp t' == sl_vol t * sl_temp t + g * c /\
    sl_top t' == en_cold_pct (sl_base t) + sl_vol t' / en_vol (sl_base t) * 100.
Proof.
  intros HV Ha Hv Hg. unfold sl_add. rewrite Ha. cbn [negb orb].
  destruct (Qle_bool g 0) eqn:E; qbool; [lra|].
  destruct (Qle_bool (sl_vol t) 0) eqn:E2; qbool.
  - cbn [bind]. rewrite sl_top_of_ok by assumption. cbn [bind]. eexists. split; [reflexivity|]. cbn.
    assert (Z : sl_vol t == 0) by lra. rewrite Z. repeat split; auto; lra.
  - rewrite qdiv_ok by lra. cbn [bind]. rewrite sl_top_of_ok by assumption. cbn [bind].
    eexists. split; [reflexivity|]. cbn. repeat split; auto; try reflexivity. field. lra.
Qed.

Lemma sl_heat_ok t k d : sl_active t = true -> 0 < sl_vol t -> 0 <= k ->
  exists t', sl_heat t k d = Ok t' /\ sl_base t' = sl_base t /\ sl_vol t' = sl_vol t /\ sl_active t' = true /\
    sl_vol t * rho_cp * (sl_temp t' - sl_temp t) == k * 1000 * d / 60.
Proof.
  intros Ha Hv Hk. unfold sl_heat. rewrite Ha. cbn [negb orb].
  destruct (Qle_bool (sl_vol t) 0) eqn:E; qbool; [lra|]. cbn [orb].
  destruct (Qle_bool k 0) eqn:E2; qbool.
  - exists t. assert (Z : k == 0) by lra. repeat split; auto. rewrite Z. field.
  - assert (0 < sl_vol t * rho_cp) by (apply qmul_pos; [assumption|apply en_rho_pos]).
    rewrite qdiv_ok by lra. cbn [bind]. eexists. split; [reflexivity|]. cbn. repeat split; auto.
    change rho_cp with (8353535 # 1000000). field. lra.
Qed.

(** ** Totality of the base queries, without any assumption on temperatures *)
Lemma en_shift_total t : en_wf t -> exists s, en_shift t = Ok s.
Proof.
  intros W. destruct (Qlt_le_dec (en_cold t) (en_storage t)) as [C|C].
  - destruct (en_shift_ok t W C) as [s [Hs _]]. eauto.
  - unfold en_shift. destruct (Qle_bool _ 0) eqn:E; qbool; [eauto|lra].
Qed.

(** The mean over a zone lies between cold and storage temperature. *)
Lemma en_zone_avg_between t lo hi a : en_wf t -> en_cold t < en_storage t -> 0 <= lo -> hi <= 100 ->
  en_zone_avg t lo hi = Ok a -> en_cold t <= a /\ a <= en_storage t.
Proof.
  intros W Hc H0 H1 E. destruct (Qlt_le_dec lo hi) as [C|C].
  - destruct (en_shift_ok t W Hc) as [s [Hs _]].
    destruct (en_zone_avg_ok t s lo hi W Hc Hs H0 C H1) as [a' [Ea Ha]].
    rewrite E in Ea. injection Ea as <-.
    destruct W as [HV [Hm _]]. pose proof (en_w_pos t Hm Hc). pose proof (en_w_eq t Hm).
    destruct (ramp_squeezes (en_cold t) (en_storage t) (en_slope t) (- s) (en_w t) lo hi Hm ltac:(lra) ltac:(lra) lo hi) as [A B]; try lra.
    rewrite <- Ha in A, B.
    pose proof (ramp_range (en_cold t) (en_storage t) (en_slope t) (- s) lo ltac:(lra)).
    pose proof (ramp_range (en_cold t) (en_storage t) (en_slope t) (- s) hi ltac:(lra)).
    split; apply Qmult_le_r with (z := hi - lo); try lra.
    + eapply Qle_trans; [|exact A]. apply Qmult_le_compat_r; lra.
    + eapply Qle_trans; [exact B|]. apply Qmult_le_compat_r; lra.
  - unfold en_zone_avg in E. destruct (Qle_bool hi lo) eqn:X; qbool; [|lra]. injection E as <-. lra.
Qed.

(** ** Invariant of the lifecycle *)
Definition sl_geom (t0 t : slug) : Prop :=
  en_vol (sl_base t) = en_vol (sl_base t0) /\ en_slope (sl_base t) = en_slope (sl_base t0) /\
  en_cold_pct (sl_base t) = en_cold_pct (sl_base t0) /\ sl_pu t = sl_pu t0 /\ sl_max t = sl_max t0.

Definition sl_inv (lo h : Q) (t : slug) : Prop :=
  (0 < en_vol (sl_base t) /\ 0 < en_slope (sl_base t) /\ 0 < sl_pu t /\ sl_pu t <= 1) /\
  en_cold_pct (sl_base t) == (1 - sl_pu t) * 100 /\ sl_max t == sl_pu t * en_vol (sl_base t) /\
  (en_storage (sl_base t) == h /\ lo <= en_cold (sl_base t) /\ en_cold (sl_base t) < h) /\
  0 <= en_energy (sl_base t) /\
  (sl_active t = true ->
     (0 <= sl_orig t /\ sl_orig t <= sl_vol t /\ sl_vol t <= sl_max t) /\
     sl_top t == en_cold_pct (sl_base t) + sl_vol t / en_vol (sl_base t) * 100 /\
     lo <= sl_temp t).

Lemma sl_inv_wf lo h t : sl_inv lo h t -> en_wf (sl_base t).
Proof. intros [[A [B [C D]]] [E _]]. repeat split; auto; lra. Qed.

Lemma sl_top_le lo h t : sl_inv lo h t -> sl_active t = true ->
  en_cold_pct (sl_base t) <= sl_top t /\ sl_top t <= 100.
Proof.
  intros [[A [B [C D]]] [E [F [_ [_ H]]]]] Ha. destruct (H Ha) as [[H1 [H2 H3]] [H4 _]]. rewrite H4.
  assert (0 <= sl_vol t / en_vol (sl_base t)) by (apply qdiv_nonneg; lra).
  assert (sl_vol t / en_vol (sl_base t) <= sl_pu t) by (apply qdiv_le_iff; lra). lra.
Qed.

Ltac stay t I := exists t; split; [reflexivity|]; split; [exact I|]; repeat split; auto.

Lemma sl_init_inv lo h t st c pu : sl_inv lo h t -> st == h -> lo <= c -> c < h ->
  exists t', sl_initialize t st c pu = Ok t' /\ sl_inv lo h t' /\ sl_geom t t' /\ sl_active t' = false.
Proof.
  intros I Hs Hl Hc. pose proof (sl_inv_wf _ _ _ I) as W.
  destruct I as [A [B [C [D [E F]]]]]. unfold sl_initialize.
  set (b := mkEn (en_vol (sl_base t)) c st (en_slope (sl_base t)) (en_energy (sl_base t)) (en_cold_pct (sl_base t))).
  assert (Wb : en_wf b) by exact W.
  assert (G : forall e, 0 <= e ->
    let t' := mkSlug (en_set_energy b e) (sl_supply t) (sl_pu t) (sl_max t) false 0 c (en_cold_pct b) (sl_orig t) in
    sl_inv lo h t' /\ sl_geom t t' /\ sl_active t' = false).
  { intros e He. cbv zeta. split; [|split; [repeat split; reflexivity|reflexivity]].
    split; [exact A|]. split; [exact B|]. split; [exact C|]. split; [cbn; auto|]. split; [exact He|].
    cbn. discriminate. }
  destruct (_ || _)%bool.
  - eexists. split; [reflexivity|]. apply G. lra.
  - rewrite qdiv_ok by (destruct W as [_ [? _]]; cbn; lra). cbn [bind].
    destruct (en_energy_at_any b ((sl_supply t - c) / en_slope b - (1 - pu) * 100) Wb) as [e [Ee He]]; [cbn; lra|].
    rewrite Ee. cbn [bind]. eexists. split; [reflexivity|]. apply G. apply qmax_l.
Qed.

Lemma sl_activate_inv lo h t s : sl_inv lo h t ->
  exists t', sl_activate t s = Ok t' /\ sl_inv lo h t' /\ sl_geom t t' /\ sl_base t' = sl_base t /\ sl_active t' = true.
Proof.
  intros I. pose proof (sl_inv_wf _ _ _ I) as W. unfold sl_activate; cbv zeta.
  destruct (sl_active t) eqn:Ea; [stay t I|].
  pose proof I as [[A1 [A2 [A3 A4]]] [B [C [[D1 [D2 D3]] [E F]]]]].
  destruct (en_shift_total _ W) as [sh Hsh]. rewrite Hsh. cbn [bind]. rewrite qdiv_ok by lra. cbn [bind].
  set (b := sl_base t) in *. set (xs := qmax (en_cold_pct b) _).
  assert (X1 : en_cold_pct b <= xs) by apply qmax_l.
  assert (X2 : xs <= 100) by (unfold xs; apply qmax_lub; [lra|apply qmin_l]). clearbody xs.
  set (v0 := (xs - en_cold_pct b) / 100 * en_vol b).
  assert (V0 : 0 <= v0).
  { unfold v0. apply qmul_nonneg; [apply qdiv_nonneg; lra|lra]. }
  assert (V1 : v0 <= sl_max t).
  { rewrite C. unfold v0. apply Qmult_le_compat_r; [|lra]. apply qdiv_le_iff; lra. }
  set (v := qmax 0 v0). assert (Ev : v == v0) by (unfold v; qmm; lra).
  assert (T : exists a, (if qltb 0 v then en_zone_avg b (en_cold_pct b) xs else Ok (en_cold b)) = Ok a /\ lo <= a).
  { destruct (qltb 0 v).
    - destruct (en_zone_avg_total b (en_cold_pct b) xs W ltac:(lra)) as [a Eaa]. exists a. split; [exact Eaa|].
      destruct (en_zone_avg_between b (en_cold_pct b) xs a W ltac:(lra) ltac:(lra) X2 Eaa). lra.
    - exists (en_cold b). split; [reflexivity|lra]. }
  destruct T as [a [Et Ha]]. rewrite Et. cbn [bind]. rewrite sl_top_of_ok by assumption. cbn [bind].
  eexists. split; [reflexivity|]. cbn. split; [|repeat split; reflexivity].
  split; [cbn; auto|]. split; [exact B|]. split; [exact C|]. split; [auto|]. split; [exact E|].
  cbn. intros _. repeat split; try lra.
Qed.

Lemma sl_heat_inv lo h t k d : sl_inv lo h t -> 0 <= k * d ->
  exists t', sl_heat t k d = Ok t' /\ sl_inv lo h t' /\ sl_geom t t'.
Proof.
  intros I Hk. unfold sl_heat. destruct (sl_active t) eqn:Ea; cbn [negb orb].
  2: { stay t I. }
  destruct (Qle_bool (sl_vol t) 0) eqn:E1; cbn [orb]; [stay t I|].
  destruct (Qle_bool k 0) eqn:E2; [stay t I|]. qbool.
  assert (P : 0 < sl_vol t * rho_cp) by (apply qmul_pos; [assumption|apply en_rho_pos]).
  rewrite qdiv_ok by lra. cbn [bind]. eexists. split; [reflexivity|]. split; [|repeat split].
  destruct I as [A [B [C [D [E F]]]]].
  split; [exact A|]. split; [exact B|]. split; [exact C|]. split; [exact D|]. split; [exact E|].
  cbn. intros _. destruct (F Ea) as [F1 [F2 F3]]. split; [exact F1|]. split; [exact F2|].
  assert (0 <= k * 1000 * d / 60 / (sl_vol t * rho_cp)) by (apply qdiv_nonneg; [apply qdiv_nonneg; lra|lra]).
  lra.
Qed.

Lemma sl_deactivate_inv lo h t : sl_inv lo h t ->
  exists t', sl_deactivate t = Ok t' /\ sl_inv lo h t' /\ sl_geom t t' /\ sl_active t' = false.
Proof.
  intros I. unfold sl_deactivate; cbv zeta. destruct (sl_active t) eqn:Ea; cbn [negb]; [|stay t I].
  pose proof (sl_inv_wf _ _ _ I) as W. pose proof I as [A [B [C [D [E F]]]]].
  set (btu := qmax 0 _). assert (Hb : 0 <= btu) by apply qmax_l.
  assert (G : forall e, 0 <= e ->
    let t' := mkSlug (en_set_energy (sl_base t) e) (sl_supply t) (sl_pu t) (sl_max t) false 0 (en_cold (sl_base t)) (en_cold_pct (sl_base t)) 0 in
    sl_inv lo h t' /\ sl_geom t t' /\ sl_active t' = false).
  { intros e He. cbv zeta. split; [|repeat split; reflexivity].
    split; [exact A|]. split; [exact B|]. split; [exact C|]. split; [exact D|]. split; [exact He|]. cbn. discriminate. }
  destruct (Qle_bool 100 (sl_top t)); cbn [bind].
  - eexists. split; [reflexivity|]. apply G. exact Hb.
  - rewrite qdiv_ok by lra. cbn [bind].
    match goal with |- context [en_zone_avg ?b ?x ?y] => destruct (en_zone_avg_total b x y W ltac:(lra)) as [a Eaa] end.
    rewrite Eaa. cbn [bind]. eexists. split; [reflexivity|]. apply G.
    match goal with |- 0 <= qmax 0 ?z + _ => pose proof (qmax_l 0 z) end. lra.
Qed.

Lemma sl_draw_inv lo h t g c u : sl_inv lo h t -> lo <= c -> c < h ->
  exists t', sl_draw_physical t g c u = Ok t' /\ sl_inv lo h t' /\ sl_geom t t' /\ sl_active t' = sl_active t.
Proof.
  intros I Hl Hc. pose proof (sl_inv_wf _ _ _ I) as W. pose proof I as [A [B [C [[D1 [D2 D3]] [E F]]]]].
  unfold sl_draw_physical; cbv zeta. destruct (sl_active t) eqn:Ea; cbn [negb].
  - destruct (F eq_refl) as [[F1 [F2 F3]] [F4 F5]].
    set (av := qmax 0 (sl_max t - sl_vol t)).
    assert (Eav : av == sl_max t - sl_vol t) by (unfold av; qmm; lra).
    destruct (qltb av g) eqn:Eo; qbool.
    + unfold sl_add. cbn [sl_active negb orb sl_vol].
      destruct (Qle_bool g 0) eqn:Eg; qbool; [lra|].
      destruct A as [A1 [A2 [A3 A4]]].
      destruct (Qle_bool (sl_vol t - (g - av)) 0) eqn:E2; qbool.
      * cbn [bind sl_base]. rewrite sl_top_of_ok by assumption. cbn [bind].
        eexists. split; [reflexivity|]. cbn. split; [|repeat split; reflexivity].
        split; [auto|]. split; [exact B|]. split; [exact C|]. split; [auto|]. split; [exact E|].
        cbn. intros _. split; [repeat split; lra|]. split; [|lra].
        rewrite B, C. field. lra.
      * rewrite qdiv_ok by lra. cbn [bind sl_base]. rewrite sl_top_of_ok by assumption. cbn [bind].
        eexists. split; [reflexivity|]. cbn. split; [|repeat split; reflexivity].
        split; [auto|]. split; [exact B|]. split; [exact C|]. split; [auto|]. split; [exact E|].
        cbn. intros _. split; [repeat split; lra|]. split; [rewrite B, C; field; lra|].
        apply qle_div_iff; [lra|]. set (v1 := sl_vol t - (g - av)) in *. clearbody v1.
        assert (v1 * lo <= v1 * sl_temp t) by nra. assert (g * lo <= g * c) by nra. lra.
    + destruct (Qlt_le_dec 0 g) as [Hg|Hg].
      * match goal with |- context [sl_add ?x g c] => set (t1 := x) end.
        destruct (sl_add_ok t1 g c) as [t' [E1 [G1 [G2 [G3 [G4 [G5 [_ [G6 [G7 G8]]]]]]]]]]; cbn; try lra; auto; try apply A.
        rewrite E1. cbn [bind]. exists t'. split; [reflexivity|]. cbn in G1, G3, G4, G5, G6, G7, G8.
        split; [|split; [unfold sl_geom; rewrite G1, G5, G3; repeat split; auto|exact G2]].
        unfold sl_inv. rewrite G1, G3, G4, G5.
        split; [exact A|]. split; [exact B|]. split; [exact C|]. split; [auto|]. split; [exact E|].
        intros _. split; [repeat split; lra|]. split; [exact G8|].
        apply Qmult_le_l with (z := sl_vol t'); [lra|]. rewrite G7.
        assert (sl_vol t * lo <= sl_vol t * sl_temp t) by nra. assert (g * lo <= g * c) by nra. 
        rewrite G6. lra.
      * unfold sl_add. cbn [sl_active negb orb]. destruct (Qle_bool g 0) eqn:Eg; qbool; [|lra].
        cbn [bind]. eexists. split; [reflexivity|]. split; [|repeat split; auto].
        split; [exact A|]. split; [exact B|]. split; [exact C|]. split; [auto|]. split; [exact E|].
        cbn. intros _. auto.
  - unfold en_draw_physical.
    set (b1 := if u then en_set_cold (sl_base t) c else sl_base t).
    assert (Wb : en_wf b1) by (unfold b1; destruct u; exact W).
    assert (Hb : en_storage b1 == h /\ lo <= en_cold b1 /\ en_cold b1 < h /\ 0 <= en_energy b1
       /\ en_vol b1 = en_vol (sl_base t) /\ en_slope b1 = en_slope (sl_base t) /\ en_cold_pct b1 = en_cold_pct (sl_base t)).
    { unfold b1; destruct u; cbn; repeat split; auto. }
    destruct Hb as [B1 [B2 [B3 [B4 [B5 [B6 B7]]]]]].
    assert (G : forall e, 0 <= e ->
      let t' := mkSlug (en_set_energy b1 e) (sl_supply t) (sl_pu t) (sl_max t) (sl_active t) (sl_vol t) (sl_temp t) (sl_top t) (sl_orig t) in
      sl_inv lo h t' /\ sl_geom t t' /\ sl_active t' = false).
    { intros e He. cbv zeta. split; [|cbn; unfold sl_geom; cbn; rewrite B5, B6, B7; repeat split; auto].
      unfold sl_inv. cbn. rewrite B5, B6, B7, Ea. split; [exact A|]. split; [exact B|]. split; [exact C|]. split; [auto|].
      split; [exact He|]. discriminate. }
    destruct (Qle_bool g 0) eqn:Eg; cbn [bind].
    + eexists. split; [reflexivity|]. 
      specialize (G (en_energy b1) B4). cbv zeta in G.
      assert (X : en_set_energy b1 (en_energy b1) = b1) by (destruct b1; reflexivity).
      rewrite X in G. rewrite Ea in G. exact G.
    + destruct (en_avg_total b1 g Wb ltac:(lra)) as [a Eaa]. rewrite Eaa. cbn [bind].
      eexists. split; [reflexivity|]. specialize (G _ (qmax_l 0 (en_energy b1 - g * rho_cp * qmax 0 (a - c)))).
      cbv zeta in G. rewrite Ea in G. exact G.
Qed.

(** Operations of the energy tank that keep the temperatures in range and the energy non-negative. *)
Lemma sl_base_inv lo h t c e : sl_inv lo h t -> lo <= c -> c < h -> 0 <= e ->
  let t' := sl_set_base t (mkEn (en_vol (sl_base t)) c (en_storage (sl_base t)) (en_slope (sl_base t)) e
                             (en_cold_pct (sl_base t))) in
  sl_inv lo h t' /\ sl_geom t t'.
Proof.
  intros [A [B [C [[D _] [_ F]]]]] H1 H2 H3. cbv zeta. split; [|repeat split; reflexivity].
  split; [exact A|]. split; [exact B|]. split; [exact C|]. split; [cbn; auto|]. split; [exact H3|exact F].
Qed.

Lemma sl_max_nonneg lo h t : sl_inv lo h t -> 0 <= en_max (sl_base t).
Proof.
  intros [[A1 [A2 [A3 A4]]] [B [C [[D1 [D2 D3]] _]]]]. unfold en_max.
  apply qmul_nonneg; [apply qmul_nonneg; [apply qmul_nonneg|pose proof en_rho_pos; lra]|lra].
  - setoid_replace (1 - en_cold_pct (sl_base t) / 100) with (sl_pu t) by (rewrite B; field). lra.
  - lra.
Qed.

Lemma entank_eta b : b = mkEn (en_vol b) (en_cold b) (en_storage b) (en_slope b) (en_energy b) (en_cold_pct b).
Proof. destruct b; reflexivity. Qed.

Lemma sl_set_base_same lo h t : sl_inv lo h t ->
  sl_inv lo h (sl_set_base t (sl_base t)) /\ sl_geom t (sl_set_base t (sl_base t)).
Proof. intros I. split; [exact I|repeat split; reflexivity]. Qed.

Lemma sl_inherited_inv lo h t o : sl_inv lo h t -> slug_call lo h o ->
  match o with LDraw _ _ _ _ | LAddEnergy _ | LHeatTank _ _ _ | LRecirc _ _ _ _ => True | _ => False end ->
  exists t', sl_step t o = Ok t' /\ sl_inv lo h t' /\ sl_geom t t'.
Proof.
  intros I Ho X. pose proof I as [_ [_ [_ [[_ [D2 D3]] [E _]]]]]. pose proof (sl_max_nonneg _ _ _ I) as M.
  destruct o as [st c pu|s|g c|k d| |g c u|v c s ho|x|k d ho|f r d s]; try (elim X); clear X; cbn [sl_step slug_call] in *;
    eexists; (split; [reflexivity|]).
  - destruct Ho as [H1 H2]. unfold en_draw; cbv zeta. destruct (_ || _)%bool.
    + apply (sl_base_inv lo h t c (en_energy (sl_base t)) I H1 H2 E).
    + apply (sl_base_inv lo h t c _ I H1 H2). apply qmax_l.
  - unfold en_add_energy. destruct (qltb 0 x) eqn:Q; qbool; [|apply (sl_set_base_same lo h t I)].
    apply (sl_base_inv lo h t (en_cold (sl_base t)) _ I D2 D3). apply qmin_glb; lra.
  - unfold en_heat; cbv zeta. destruct (_ || _)%bool; [apply (sl_set_base_same lo h t I)|].
    apply (sl_base_inv lo h t (en_cold (sl_base t)) _ I D2 D3). apply qmin_glb; [|lra].
    assert (0 <= k * 1000 * d / 60) by (setoid_replace (k * 1000 * d / 60) with (k * d * (1000 / 60)) by field; apply qmul_nonneg; [lra|discriminate]).
    lra.
  - unfold en_recirc; cbv zeta. apply (sl_base_inv lo h t (en_cold (sl_base t)) _ I D2 D3). apply qmax_l.
Qed.

Lemma sl_step_inv lo h t o : sl_inv lo h t -> slug_call lo h o ->
  exists t', sl_step t o = Ok t' /\ sl_inv lo h t' /\ sl_geom t t'.
Proof.
  intros I Ho.
  destruct o as [st c pu|s|g c|k d| |g c u| | | | ];
    try (apply (sl_inherited_inv lo h t _ I Ho); exact Logic.I); cbn [sl_step slug_call] in *; try tauto.
  - destruct Ho as [H1 [H2 H3]]. destruct (sl_init_inv lo h t st c pu I H1 H2 H3) as [t' [E [X [Y _]]]]. eauto.
  - destruct (sl_activate_inv lo h t s I) as [t' [E [X [Y _]]]]. eauto.
  - destruct (sl_heat_inv lo h t k d I Ho) as [t' [E [X Y]]]. eauto.
  - destruct (sl_deactivate_inv lo h t I) as [t' [E [X [Y _]]]]. eauto.
  - destruct Ho as [H1 H2]. destruct (sl_draw_inv lo h t g c u I H1 H2) as [t' [E [X [Y _]]]]. eauto.
Qed.

Lemma sl_run_inv lo h os : forall t, sl_inv lo h t -> Forall (slug_call lo h) os ->
  exists t', sl_run t os = Ok t' /\ sl_inv lo h t' /\ sl_geom t t'.
Proof.
  induction os as [|o os IH]; intros t I HF.
  - stay t I.
  - inversion HF as [|? ? Ho Hos]; subst. destruct (sl_step_inv lo h t o I Ho) as [t1 [E1 [I1 G1]]].
    cbn [sl_run]. rewrite E1. cbn [bind]. destruct (IH t1 I1 Hos) as [t2 [E2 [I2 G2]]]. exists t2.
    split; [exact E2|]. split; [exact I2|].
    destruct G1 as [a1 [a2 [a3 [a4 a5]]]]. destruct G2 as [b1 [b2 [b3 [b4 b5]]]]. repeat split; congruence.
Qed.

Lemma sl_new_inv vol cold h supply pu slope lo : sl_params_ok vol pu slope -> lo <= cold -> cold < h ->
  sl_inv lo h (sl_new vol cold h supply pu slope).
Proof.
  intros [A [B [C D]]] H1 H2. unfold sl_new, sl_inv. cbn. repeat split; auto; try reflexivity; try lra; try discriminate.
Qed.

(** ** Usable volume *)
Lemma sl_usable_inv lo h t sup : sl_inv lo h t ->
  exists u, sl_usable t sup = Ok u /\ 0 <= u /\ u <= sl_pu t * en_vol (sl_base t).
Proof.
  intros I. pose proof (sl_inv_wf _ _ _ I) as W. destruct I as [[A1 [A2 [A3 A4]]] [B [C [D [E F]]]]].
  assert (P : 0 <= sl_pu t * en_vol (sl_base t)) by (apply qmul_nonneg; lra).
  unfold sl_usable; cbv zeta. destruct (sl_active t); cbn [negb].
  - destruct (F eq_refl) as [[F1 [F2 F3]] _]. eexists. split; [reflexivity|]. destruct (Qle_bool sup (sl_temp t)); lra.
  - unfold en_usable. destruct (en_shift_total _ W) as [s Hs]. rewrite Hs. cbn [bind]. rewrite qdiv_ok by lra. cbn [bind].
    eexists. split; [reflexivity|]. set (z := qmax 0 _).
    assert (z <= 100) by (unfold z; apply qmax_lub; [lra|apply qmin_l]).
    assert (0 <= (100 - z) / 100 * en_vol (sl_base t)) by (apply qmul_nonneg; [apply qdiv_nonneg; lra|lra]).
    split; [apply qmin_glb; lra|]. eapply Qle_trans; [apply qmin_r|]. lra.
Qed.

Lemma c29_invariant vol cold h supply pu slope lo os sup :
  sl_params_ok vol pu slope -> lo <= cold -> cold < h -> Forall (slug_call lo h) os ->
  exists t u, sl_run (sl_new vol cold h supply pu slope) os = Ok t /\
    (sl_active t = true -> 0 <= sl_vol t /\ sl_vol t <= pu * vol /\ lo <= sl_temp t) /\
    0 <= en_energy (sl_base t) /\
    sl_usable t sup = Ok u /\ 0 <= u /\ u <= pu * vol.
Proof.
  intros H H1 H2 HF. pose proof (sl_new_inv vol cold h supply pu slope lo H H1 H2) as I0.
  destruct (sl_run_inv lo h os _ I0 HF) as [t [E [I [G1 [G2 [G3 [G4 G5]]]]]]].
  destruct (sl_usable_inv lo h t sup I) as [u [Eu Hu]].
  exists t, u. split; [exact E|]. rewrite G1, G4 in Hu. cbn in Hu.
  pose proof I as [A [B [C [D [F K]]]]].
  split; [|split; [exact F|split; [exact Eu|exact Hu]]].
  intros Ha. destruct (K Ha) as [[K1 [K2 K3]] [_ K5]]. rewrite G5 in K3. cbn in K3. repeat split; auto; lra.
Qed.

(** ** What queries see while the slug is active *)
Lemma c29_query lo h t f : sl_inv lo h t -> sl_active t = true ->
  (f * 100 < en_cold_pct (sl_base t) -> sl_temp_at t f = Ok (en_cold (sl_base t))) /\
  (en_cold_pct (sl_base t) <= f * 100 -> f * 100 <= en_cold_pct (sl_base t) + sl_vol t / en_vol (sl_base t) * 100 ->
     sl_temp_at t f = Ok (qmax (en_cold (sl_base t)) (qmin (en_storage (sl_base t)) (sl_temp t)))) /\
  (en_cold_pct (sl_base t) + sl_vol t / en_vol (sl_base t) * 100 < f * 100 ->
     sl_temp_at t f = en_temp (sl_base t) (f - (sl_vol t - sl_orig t) / en_vol (sl_base t))).
Proof.
  intros I Ha. pose proof (sl_top_le lo h t I Ha) as HT.
  destruct I as [[A1 [A2 [A3 A4]]] [B [C [D [E F]]]]]. destruct (F Ha) as [[F1 [F2 F3]] [F4 F5]].
  unfold sl_temp_at; cbv zeta. rewrite Ha. cbn [negb]. split; [|split].
  - intros H. apply qltb_true in H. rewrite H. reflexivity.
  - intros H1 H2. apply qltb_false in H1. rewrite H1. rewrite <- F4 in H2. apply qleb_true in H2. rewrite H2. reflexivity.
  - intros H. rewrite <- F4 in H.
    destruct (qltb (f * 100) (en_cold_pct (sl_base t))) eqn:X; qbool; [lra|].
    destruct (Qle_bool (f * 100) (sl_top t)) eqn:Y; qbool; [lra|].
    rewrite qdiv_ok by lra. reflexivity.
Qed.

(** ** Deactivation *)
Lemma c29_deactivate lo h t T : sl_inv lo h t -> sl_active t = true -> en_profile (sl_base t) T ->
  exists t', sl_deactivate t = Ok t' /\ sl_active t' = false /\
    let V := en_vol (sl_base t) in
    let slug_heat := qmax 0 (sl_vol t * rho_cp * (sl_temp t - en_cold (sl_base t))) in
    (sl_max t <= sl_vol t -> en_energy (sl_base t') == slug_heat) /\
    (sl_vol t < sl_max t -> exists a,
       is_mean T (1 - sl_pu t + sl_orig t / V) (1 - (sl_vol t - sl_orig t) / V) a /\
       en_energy (sl_base t') == slug_heat + (sl_max t - sl_vol t) * rho_cp * (a - en_cold (sl_base t))).
Proof.
  intros I Ha HT. pose proof (sl_inv_wf _ _ _ I) as W. pose proof I as [[A1 [A2 [A3 A4]]] [B [C [[D1 [D2 D3]] [E F]]]]].
  destruct (F Ha) as [[F1 [F2 F3]] [F4 F5]].
  unfold sl_deactivate; cbv zeta. rewrite Ha. cbn [negb]. cbv zeta.
  set (b := sl_base t) in *. set (V := en_vol b) in *.
  set (btu := qmax 0 (sl_vol t * rho_cp * (sl_temp t - en_cold b))).
  assert (Hmax : sl_max t / V == sl_pu t) by (rewrite C; field; lra).
  destruct (Qle_bool 100 (sl_top t)) eqn:Et; qbool; cbn [bind].
  - eexists. split; [reflexivity|]. split; [reflexivity|]. cbn. split; [reflexivity|].
    intros Hlt. exfalso. rewrite F4 in Et.
    assert (sl_vol t / V < sl_pu t) by (apply qdiv_lt_iff; lra). lra.
  - assert (Hlt : sl_vol t < sl_max t).
    { destruct (Qlt_le_dec (sl_vol t) (sl_max t)) as [X|X]; [exact X|]. exfalso. rewrite F4 in Et.
      assert (sl_pu t <= sl_vol t / V) by (apply qle_div_iff; lra). lra. }
    rewrite qdiv_ok by lra. cbn [bind].
    set (gq := (sl_vol t - sl_orig t) / V). set (hi := 100 - gq * 100). set (lo' := hi - (100 - sl_top t)).
    assert (Hgq : 0 <= gq) by (unfold gq; apply qdiv_nonneg; lra).
    assert (Hvo : sl_vol t / V - gq == sl_orig t / V) by (unfold gq; field; lra).
    assert (Ho : 0 <= sl_orig t / V) by (apply qdiv_nonneg; lra).
    assert (Elo : lo' == (1 - sl_pu t + sl_orig t / V) * 100).
    { unfold lo', hi. rewrite F4, B. lra. }
    assert (Hvm : sl_vol t / V < sl_pu t) by (apply qdiv_lt_iff; lra).
    destruct (en_shift_ok b W ltac:(lra)) as [s [Hs _]]. pose proof (en_profile_prof b s T Hs HT) as HP.
    destruct (en_zone_avg_ok b s lo' hi W ltac:(lra) Hs) as [a [Eaa Haa]].
    { rewrite Elo. lra. } { rewrite Elo. unfold hi. lra. } { unfold hi. lra. }
    rewrite Eaa. cbn [bind]. eexists. split; [reflexivity|]. split; [reflexivity|]. cbn. split; [intro; lra|].
    intros _. exists a. split.
    + unfold is_mean.
      pose proof (integral_of_antiderivative T _ (1 - sl_pu t + sl_orig t / V) (1 - gq)
        (en_prof_squeezes_abs b s (1 - sl_pu t + sl_orig t / V) (1 - gq) T W ltac:(lra) HP ltac:(rewrite B; lra))) as HI.
      cbv beta in HI. intros pts Hp.
      assert (X : a * (1 - gq - (1 - sl_pu t + sl_orig t / V)) ==
         ramp_F (en_cold b) (en_slope b) (- s) (en_w b) ((1 - gq) * 100) * (1 # 100) -
         ramp_F (en_cold b) (en_slope b) (- s) (en_w b) ((1 - sl_pu t + sl_orig t / V) * 100) * (1 # 100)).
      { rewrite Elo in Haa. assert (Eh : hi == (1 - gq) * 100) by (unfold hi; ring). rewrite Eh in Haa. lra. }
      rewrite X. exact (HI pts Hp).
    + destruct (en_zone_avg_between b lo' hi a W ltac:(lra)) as [Q1 _]; auto.
      { rewrite Elo. lra. } { unfold hi. lra. }
      fold btu.
      assert (Z1 : qmax 0 (sl_max t - sl_vol t) == sl_max t - sl_vol t) by (qmm; lra).
      assert (Z2 : 0 <= (sl_max t - sl_vol t) * rho_cp * (a - en_cold b)).
      { apply qmul_nonneg; [apply qmul_nonneg; [lra|apply Qlt_le_weak, en_rho_pos]|lra]. }
      assert (Z3 : qmax 0 (qmax 0 (sl_max t - sl_vol t) * rho_cp * (a - en_cold b)) == (sl_max t - sl_vol t) * rho_cp * (a - en_cold b)).
      { rewrite Z1. revert Z2. generalize ((sl_max t - sl_vol t) * rho_cp * (a - en_cold b)). intros z Hz. qmm; lra. }
      rewrite Z3. lra.
Qed.

(** ** Activation followed by deactivation keeps the stored energy *)
Lemma ramp_F_split c m r w x : ramp_F c m r w x == c * x + ramp_F 0 m r w x.
Proof. unfold ramp_F. ring. Qed.

Lemma c29_roundtrip lo h t sup : sl_inv lo h t -> sl_active t = false ->
  en_energy (sl_base t) <= en_full (sl_base t) ->
  exists t1 t2, sl_activate t sup = Ok t1 /\ sl_deactivate t1 = Ok t2 /\
    Qabs (en_energy (sl_base t2) - en_energy (sl_base t)) <= en_tol (sl_base t).
Proof.
  intros I Ha Hfull. pose proof (sl_inv_wf _ _ _ I) as W. pose proof I as [[A1 [A2 [A3 A4]]] [B [C [[D1 [D2 D3]] [E F]]]]].
  unfold sl_activate; cbv zeta. rewrite Ha. set (b := sl_base t) in *.
  assert (Hc : en_cold b < en_storage b) by lra.
  destruct (en_shift_ok b W Hc) as [s [Hs [S1 [S2 S3]]]]. rewrite Hs. cbn [bind]. rewrite qdiv_ok by lra. cbn [bind].
  set (xs := qmax (en_cold_pct b) _).
  assert (X1 : en_cold_pct b <= xs) by apply qmax_l.
  assert (X2 : xs <= 100) by (unfold xs; apply qmax_lub; [lra|apply qmin_l]). clearbody xs.
  set (V := en_vol b) in *.
  set (v0 := (xs - en_cold_pct b) / 100 * V).
  assert (V0 : 0 <= v0).
  { unfold v0. apply qmul_nonneg; [apply qdiv_nonneg; lra|lra]. }
  set (v := qmax 0 v0). assert (Ev : v == v0) by (unfold v; qmm; lra).
  set (P0 := ramp_F 0 (en_slope b) (- s) (en_w b)).
  pose proof (en_w_pos b A2 Hc) as Hw. pose proof (en_w_eq b A2) as Ew.
  assert (Hr : 0 < rho_cp) by apply en_rho_pos.
  assert (T : exists a, (if qltb 0 v then en_zone_avg b (en_cold_pct b) xs else Ok (en_cold b)) = Ok a
             /\ en_cold b <= a /\ v * (a - en_cold b) == V / 100 * (P0 xs - P0 (en_cold_pct b))).
  { destruct (qltb 0 v) eqn:Qv; qbool.
    - assert (Hx : en_cold_pct b < xs).
      { destruct (Qlt_le_dec (en_cold_pct b) xs) as [Z|Z]; [exact Z|]. exfalso.
        assert (Z2 : xs - en_cold_pct b == 0) by lra. unfold v0 in Ev. rewrite Z2 in Ev.
        assert (0 / 100 * V == 0) by field. lra. }
      destruct (en_zone_avg_ok b s (en_cold_pct b) xs W Hc Hs) as [a [Eaa Haa]]; try lra.
      exists a. split; [exact Eaa|]. split; [apply (en_zone_avg_between b (en_cold_pct b) xs a W Hc ltac:(lra) X2 Eaa)|].
      rewrite !(ramp_F_split (en_cold b)) in Haa. fold P0 in Haa.
      assert (Y : (xs - en_cold_pct b) * (a - en_cold b) == P0 xs - P0 (en_cold_pct b)) by lra.
      rewrite Ev. unfold v0. rewrite <- Y. field.
    - exists (en_cold b). split; [reflexivity|]. split; [lra|].
      assert (Hx : xs == en_cold_pct b).
      { destruct (Qlt_le_dec (en_cold_pct b) xs) as [Z|Z]; [|lra]. exfalso.
        assert (0 < v0); [|lra]. unfold v0. apply qmul_pos; [apply qdiv_pos; lra|lra]. }
      unfold P0. rewrite Hx. field. }
  destruct T as [a [Et [Ha1 Ha2]]]. rewrite Et. cbn [bind]. rewrite sl_top_of_ok by assumption. cbn [bind].
  assert (Etop : en_cold_pct b + v / V * 100 == xs).
  { rewrite Ev. unfold v0. field. lra. }
  match goal with |- exists t1 t2, Ok ?x = Ok t1 /\ _ => exists x end.
  assert (Eb : forall x, 0 <= x -> qmax 0 x == x) by (intros; qmm; lra).
  assert (H1 : v * rho_cp * (a - en_cold b) == rho_cp * V / 100 * (P0 xs - P0 (en_cold_pct b))).
  { assert (Y : v * rho_cp * (a - en_cold b) == rho_cp * (v * (a - en_cold b))) by ring. rewrite Y, Ha2. field. }
  assert (H1p : 0 <= v * rho_cp * (a - en_cold b)).
  { apply qmul_nonneg; [apply qmul_nonneg; lra|lra]. }
  assert (Ee : en_e b s == rho_cp * V / 100 * (P0 100 - P0 (en_cold_pct b))) by reflexivity.
  assert (EC : en_clamped b == en_energy b).
  { rewrite <- en_max_full in Hfull. unfold en_clamped. qmm; lra. }
  rewrite EC in S3.
  unfold sl_deactivate; cbv zeta. cbn [sl_active negb sl_base sl_vol sl_temp sl_orig sl_top sl_max]. fold V.
  destruct (Qle_bool 100 (en_cold_pct b + v / V * 100)) eqn:Q100; qbool.
  - cbn [bind]. eexists. split; [reflexivity|]. split; [reflexivity|]. cbn [sl_base en_energy en_set_energy]; fold V.
    eapply Qle_trans; [|exact S3]. apply Qle_lteq. right. apply Qabs_wd.
    rewrite Eb by exact H1p. rewrite H1, Ee.
    assert (Hx : xs == 100) by lra. unfold P0. rewrite Hx. reflexivity.
  - rewrite qdiv_ok by lra. cbn [bind].
    set (gq := (v - v) / V). assert (Hgq : gq == 0) by (unfold gq; field; lra).
    set (hi := 100 - gq * 100). assert (Hhi : hi == 100) by (unfold hi; rewrite Hgq; ring).
    set (lo' := hi - (100 - (en_cold_pct b + v / V * 100))).
    assert (Hlo : lo' == xs) by (unfold lo'; rewrite Hhi, Etop; ring).
    destruct (en_zone_avg_ok b s lo' hi W Hc Hs) as [a2 [Ea2 Haa2]]; try lra.
    rewrite Ea2. cbn [bind]. eexists. split; [reflexivity|]. split; [reflexivity|]. cbn [sl_base en_energy en_set_energy]; fold V.
    eapply Qle_trans; [|exact S3]. apply Qle_lteq. right. apply Qabs_wd.
    destruct (en_zone_avg_between b lo' hi a2 W Hc ltac:(lra) ltac:(lra) Ea2) as [Q1 _].
    rewrite Hlo, Hhi in Haa2. rewrite !(ramp_F_split (en_cold b)) in Haa2. fold P0 in Haa2.
    assert (Y : (100 - xs) * (a2 - en_cold b) == P0 100 - P0 xs) by lra.
    assert (Emx : sl_max t - v == (100 - xs) / 100 * V).
    { rewrite Ev, C. unfold v0. rewrite B. field. }
    assert (Hpos : 0 <= (100 - xs) / 100 * V) by (apply qmul_nonneg; [apply qdiv_nonneg; lra|lra]).
    assert (H2 : qmax 0 (sl_max t - v) * rho_cp * (a2 - en_cold b) == rho_cp * V / 100 * (P0 100 - P0 xs)).
    { rewrite (Eb (sl_max t - v)) by lra. rewrite Emx, <- Y. field. }
    assert (H2p : 0 <= qmax 0 (sl_max t - v) * rho_cp * (a2 - en_cold b)).
    { apply qmul_nonneg; [apply qmul_nonneg; [apply qmax_l|lra]|lra]. }
    rewrite (Eb _ H1p), (Eb _ H2p), H1, H2, Ee. ring.
Qed.

Lemma sl_reachable_inv lo h t : sl_reachable lo h t -> sl_inv lo h t.
Proof.
  intros [vol [cold [supply [pu [slope [os [P [H1 [H2 [HF E]]]]]]]]]].
  destruct (sl_run_inv lo h os _ (sl_new_inv vol cold h supply pu slope lo P H1 H2) HF) as [t' [E' [I _]]].
  rewrite E in E'. injection E' as <-. exact I.
Qed.

Lemma c29_query_r lo h t f : sl_reachable lo h t -> sl_active t = true ->
  (f * 100 < en_cold_pct (sl_base t) -> sl_temp_at t f = Ok (en_cold (sl_base t))) /\
  (en_cold_pct (sl_base t) <= f * 100 -> f * 100 <= en_cold_pct (sl_base t) + sl_vol t / en_vol (sl_base t) * 100 ->
     sl_temp_at t f = Ok (qmax (en_cold (sl_base t)) (qmin (en_storage (sl_base t)) (sl_temp t)))) /\
  (en_cold_pct (sl_base t) + sl_vol t / en_vol (sl_base t) * 100 < f * 100 ->
     sl_temp_at t f = en_temp (sl_base t) (f - (sl_vol t - sl_orig t) / en_vol (sl_base t))).
Proof. intros R. apply (c29_query lo h t f (sl_reachable_inv _ _ _ R)). Qed.

Lemma c29_deactivate_r lo h t T : sl_reachable lo h t -> sl_active t = true -> en_profile (sl_base t) T ->
  exists t', sl_deactivate t = Ok t' /\ sl_active t' = false /\
    let V := en_vol (sl_base t) in
    let slug_heat := qmax 0 (sl_vol t * rho_cp * (sl_temp t - en_cold (sl_base t))) in
    (sl_max t <= sl_vol t -> en_energy (sl_base t') == slug_heat) /\
    (sl_vol t < sl_max t -> exists a,
       is_mean T (1 - sl_pu t + sl_orig t / V) (1 - (sl_vol t - sl_orig t) / V) a /\
       en_energy (sl_base t') == slug_heat + (sl_max t - sl_vol t) * rho_cp * (a - en_cold (sl_base t))).
Proof. intros R. apply (c29_deactivate lo h t T (sl_reachable_inv _ _ _ R)). Qed.

Lemma c29_roundtrip_r lo h t sup : sl_reachable lo h t -> sl_active t = false ->
  en_energy (sl_base t) <= en_full (sl_base t) ->
  exists t1 t2, sl_activate t sup = Ok t1 /\ sl_deactivate t1 = Ok t2 /\
    Qabs (en_energy (sl_base t2) - en_energy (sl_base t)) <= en_tol (sl_base t).
Proof. intros R. apply (c29_roundtrip lo h t sup (sl_reachable_inv _ _ _ R)). Qed.

Lemma c29_add t g c : 0 < en_vol (sl_base t) -> sl_active t = true -> 0 <= sl_vol t -> 0 < g ->
  exists t', sl_add t g c = Ok t' /\ sl_base t' = sl_base t /\
    sl_vol t' == sl_vol t + g /\ sl_vol t' * sl_temp t' == sl_vol t * sl_temp t + g * c.
Proof.
  intros A B C D. destruct (sl_add_ok t g c A B C D) as [t' [E [E1 [_ [_ [_ [_ [_ [E2 [E3 _]]]]]]]]]].
  exists t'. auto.
Qed.

Lemma c29_heat t k d : sl_active t = true -> 0 < sl_vol t -> 0 <= k ->
  exists t', sl_heat t k d = Ok t' /\ sl_base t' = sl_base t /\ sl_vol t' = sl_vol t /\
    sl_vol t * rho_cp * (sl_temp t' - sl_temp t) == k * 1000 * d / 60.
Proof. intros A B C. destruct (sl_heat_ok t k d A B C) as [t' [E [E1 [E2 [_ E3]]]]]. exists t'. auto. Qed.

(** A draw that fits in the hot zone above the slug joins the slug; a larger one takes the hot
    zone and part of the slug, and the slug then fills the usable tank. *)
Lemma c29_draw lo h t g c u : sl_reachable lo h t -> sl_active t = true -> lo <= c -> c < h -> 0 < g ->
  exists t', sl_draw_physical t g c u = Ok t' /\ sl_active t' = true /\ sl_base t' = sl_base t /\
   (g <= sl_max t - sl_vol t ->
      sl_vol t' == sl_vol t + g /\ sl_vol t' * sl_temp t' == sl_vol t * sl_temp t + g * c) /\
   (sl_max t - sl_vol t < g -> sl_vol t' = sl_max t /\
      (g < sl_max t -> sl_max t * sl_temp t' == (sl_max t - g) * sl_temp t + g * c) /\
      (sl_max t <= g -> sl_temp t' == c)).
Proof.
  intros R Ha Hl Hc Hg. pose proof (sl_reachable_inv _ _ _ R) as I. pose proof I as [A [B [C [[D1 [D2 D3]] [E F]]]]].
  destruct (F Ha) as [[F1 [F2 F3]] [F4 F5]]. unfold sl_draw_physical; cbv zeta. rewrite Ha. cbn [negb].
  set (av := qmax 0 (sl_max t - sl_vol t)).
  assert (Eav : av == sl_max t - sl_vol t) by (unfold av; qmm; lra).
  destruct (qltb av g) eqn:Eo; qbool.
  - unfold sl_add. cbn [sl_active negb orb sl_vol sl_base].
    destruct (Qle_bool g 0) eqn:Eg; qbool; [lra|].
    assert (Ev : sl_vol t - (g - av) == sl_max t - g) by lra.
    destruct (Qle_bool (sl_vol t - (g - av)) 0) eqn:E2; qbool.
    + cbn [bind]. rewrite sl_top_of_ok by apply A. cbn [bind]. eexists. split; [reflexivity|]. cbn.
      split; [reflexivity|]. split; [reflexivity|]. split; [intro; lra|]. intros _. split; [reflexivity|].
      split; [intro; lra|reflexivity].
    + rewrite qdiv_ok by lra. cbn [bind sl_base]. rewrite sl_top_of_ok by apply A. cbn [bind]. eexists. split; [reflexivity|]. cbn.
      split; [reflexivity|]. split; [reflexivity|]. split; [intro; lra|]. intros _. split; [reflexivity|].
      split; [|intro; lra]. intros _.
      assert (Es : sl_vol t - (g - av) + g == sl_max t) by lra.
      rewrite Es, Ev. field. lra.
  - match goal with |- context [sl_add ?x g c] => set (t1 := x) end.
    destruct (sl_add_ok t1 g c) as [t' [E1 [G1 [G2 [G3 [G4 [G5 [_ [G6 [G7 G8]]]]]]]]]]; cbn; try lra; auto; try apply A.
    rewrite E1. cbn [bind]. exists t'. split; [reflexivity|]. cbn in G1, G3, G4, G5, G6, G7, G8.
    split; [exact G2|]. split; [exact G1|]. split; [auto|intro; lra].
Qed.
