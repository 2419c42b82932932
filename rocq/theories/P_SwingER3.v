(** C74: whether the resistance element that sizing asks for is enough. *)
From Verif Require Import Prelude M_StratifiedTank M_MixedTank M_EnergyTank M_Building M_Heater S_Heater M_Sizing S_Sizing L_Building L_Heater
  M_Step M_Swing S_Swing P_Swing M_SwingER2 S_SwingER2 P_SwingER2 L_SwingER3.
Open Scope Q_scope.

Lemma in_shape (shape : list Q) (j : nat) : shape <> [] -> In (nth (j mod length shape) shape 0) shape.
Proof. intro N. apply nth_In. apply Nat.mod_upper_bound. destruct shape; [congruence|discriminate]. Qed.

(** An element that heats the largest draw from the inlet temperature and covers the loop's loss needs no
    addition, whatever the primary: sizing finds no shortfall. *)
Theorem C74_ample_element : forall hs tank sw initial b supply storage ret flow safety oat inlet caps,
  bd_design_oat b = Ok oat -> design_inlet b = Ok inlet -> Forall2 (gives_at oat storage inlet) hs caps ->
  0 < mx_vol sw -> 0 < initial -> inlet < supply -> supply <= storage -> length (bd_peak b) = 24%nat ->
  (forall x, In x (bd_peak b) -> 0 <= bd_daily b * x < 60 * mx_vol sw) ->
  (forall x, In x (bd_peak b) ->
     bd_daily b * x / 60 * btu_gal_f * (supply - inlet) + minute_btu (loop_loss supply ret flow) <= minute_btu initial) ->
  exists s w er, er_from_components hs tank sw initial b supply storage ret flow safety = Ok (s, w) /\ get_er_kbtuh s = Ok er /\ er == 0.
Proof.
  intros hs tank sw initial b supply storage ret flow safety oat inlet caps HO HI FC V0 B0 Hin Hst LP SH AM.
  destruct (C73_components hs tank sw initial b supply storage ret flow safety oat inlet caps HO HI FC V0 B0 Hin Hst LP SH)
    as (s & w & i & gen & l1 & l2 & worst & er & E & _ & _ & _ & _ & _ & _ & _ & _ & GE & _ & _ & D1 & D2 & A & O & MB & _).
  exists s, w, er. split; [exact E|]. split; [exact GE|].
  assert (NE : bd_peak b <> []) by (intro Z; rewrite Z in LP; discriminate LP).
  assert (DM : forall x, In x (map (minute_demand (bd_daily b) (bd_peak b) i) (seq 0 two_days)) ->
    0 <= x /\ x * btu_gal_f * (supply - inlet) + minute_btu (loop_loss supply ret flow) <= minute_btu initial).
  { intros x X. apply in_map_iff in X. destruct X as (n & <- & _). unfold minute_demand.
    pose proof (in_shape (bd_peak b) (i + n / 60) NE) as IS. set (y := nth _ (bd_peak b) 0) in *. clearbody y.
    split; [|exact (AM y IS)]. destruct (SH y IS) as [S0 _]. apply qdiv_nonneg; [exact S0|reflexivity]. }
  assert (W0 : worst == 0).
  { destruct O as [O|O]; [exact O|]. apply in_app_iff in O.
    set (k := mkTank supply storage inlet (loop_loss supply ret flow) (mx_vol sw) initial) in *.
    destruct O as [O|O]; [exact (er_days_ample k _ _ V0 Hin Hst _ _ _ _ _ D1 (Qle_refl _) DM _ O)|exact (er_days_ample k _ _ V0 Hin Hst _ _ _ _ _ D2 (Qle_refl _) DM _ O)]. }
  unfold minute_btu in MB. rewrite W0 in MB. assert (er * 1000 / 60 * (60 # 1000) == 0) by (rewrite MB; ring). assert (Q : er * 1000 / 60 * (60 # 1000) == er) by field. lra.
Qed.
Print Assumptions C74_ample_element.

(** ** The element sizing asks for may not be enough *)

(** A swing tank of 500 gallons on a 1052 kBTU/h primary with a 5 gallon buffer; four hours of 1830 gallons
    and, two hours later, one of 1860. *)
Definition weak_hs : list heater :=
  [wh_new (Some (PmNominal (21 * 60 * (8353535 # 1000000) * 100 / 1000))) (Some (repeat "normal"%string 24))
     (Some [("normal"%string, mkControls (4 # 10) 120 (1 # 10) 140 150)])].
Definition weak_shape : list Q := repeat 0 6 ++ repeat (61 # 306) 4 ++ [0; 0] ++ [62 # 306] ++ repeat 0 11.
Definition weak_building : building :=
  mkBuilding (Some (cz_from_design (Some 30) (Some 50))) 9180 weak_shape weak_shape "multi_family".
Definition weak_base : Q := (45 # 100) * 500 * (8353535 # 1000000) * 60 / 1000.
Definition weak_draws : list draw := repeat Idle 6 ++ repeat Long 4 ++ [Idle; Idle] ++ [Peak] ++ repeat Idle 11.
Definition weak_minutes : list draw := flat_map (fun j => repeat (nth ((6 + j) mod 24) weak_draws Idle) 60) (seq 0 48).

Lemma weak_first : forall i, first_onset 24 weak_shape i -> i = 6%nat.
Proof.
  intros i [[(L & G & B) M]|[N _]].
  - assert (O6 : onset 24 weak_shape 6) by (split; [lia|]; split; [reflexivity|discriminate]).
    specialize (M _ O6). do 6 (destruct i as [|i]; [vm_compute in G; discriminate G|]). lia.
  - exfalso. apply (N 6%nat). split; [lia|]. split; [reflexivity|discriminate].
Qed.

Lemma weak_demand : Forall2 (fun x d => x == gallons d) (map (minute_demand 9180 weak_shape 6) (seq 0 two_days)) weak_minutes.
Proof.
  unfold two_days, weak_minutes. rewrite <- (by_hour (fun j => nth ((6 + j) mod 24) weak_draws Idle) 48).
  generalize (seq 0 (48 * 60)). induction l as [|n l IH]; [constructor|]. cbn [map]. constructor; [|exact IH].
  unfold minute_demand. change (length weak_shape) with 24%nat. generalize (Nat.mod_upper_bound (6 + n / 60) 24 ltac:(discriminate)).
  generalize ((6 + n / 60) mod 24). intros j J. do 24 (destruct j as [|j]; [reflexivity|]). lia.
Qed.

Lemma weak_plant gen cap b : gen * 60 * btu_gal_f * (150 - 50) == qsum [21 * 60 * (8353535 # 1000000) * 100 / 1000] * 1000 ->
  minute_btu cap == 500 * btu_gal_f * hundredths b -> (0 < b)%Z ->
  zplant (mkTank 120 150 50 (loop_loss 120 110 20) 500 cap) gen 5 b.
Proof.
  intros G C B. constructor; cbn [tk_supply tk_storage tk_inlet tk_vol tk_loss tk_cap]; try reflexivity; try assumption.
  apply (Qmult_inj_r _ _ (60 * btu_gal_f * (150 - 50))); [discriminate|]. rewrite <- Qmult_assoc in G. rewrite !Qmult_assoc in *. rewrite G. reflexivity.
Qed.

Lemma weak_run1 : forallb in_range (zrun 45 false 0 0 weak_minutes) = true /\ forallb in_range (zrun 45 false 0 5 weak_minutes) = true /\
  forallb (fun p => (snd p <=? 2)%Z) (zrun 45 false 0 0 weak_minutes ++ zrun 45 false 0 5 weak_minutes) = true /\
  existsb (fun p => (snd p =? 2)%Z) (zrun 45 false 0 0 weak_minutes) = true.
Proof. vm_compute. repeat split. Qed.
Lemma weak_run2 : forallb in_range (zrun 47 false 0 0 weak_minutes) = true /\ forallb in_range (zrun 47 false 0 5 weak_minutes) = true /\
  forallb (fun p => (snd p <=? 7)%Z) (zrun 47 false 0 0 weak_minutes ++ zrun 47 false 0 5 weak_minutes) = true /\
  existsb (fun p => (snd p =? 7)%Z) (zrun 47 false 0 0 weak_minutes) = true.
Proof. vm_compute. repeat split. Qed.

Lemma weak_worst base b top : forallb in_range (zrun b false 0 0 weak_minutes) = true -> forallb in_range (zrun b false 0 5 weak_minutes) = true ->
  forallb (fun p => (snd p <=? top)%Z) (zrun b false 0 0 weak_minutes ++ zrun b false 0 5 weak_minutes) = true ->
  existsb (fun p => (snd p =? top)%Z) (zrun b false 0 0 weak_minutes) = true ->
  0 < base -> minute_btu base == 500 * btu_gal_f * hundredths b -> (0 < b)%Z -> (0 <= top)%Z ->
  exists s w er, er_from_components weak_hs (st_new 5 2) (mkMixed 500 0 0) base weak_building 120 150 110 20 1 = Ok (s, w) /\
    get_er_kbtuh s = Ok er /\ minute_btu er == 500 * btu_gal_f * hundredths top.
Proof.
  intros R1 R2 TOP AT B0 BC BP TP.
  assert (CG : Forall2 (gives_at (Some 30) 150 50) weak_hs [21 * 60 * (8353535 # 1000000) * 100 / 1000]) by (constructor; [|constructor]; eexists; split; reflexivity).
  destruct (C73_components weak_hs (st_new 5 2) (mkMixed 500 0 0) base weak_building 120 150 110 20 1 (Some 30) 50 _ eq_refl eq_refl CG eq_refl B0 eq_refl)
    as (s & w & i & gen & l1 & l2 & worst & er & E & _ & _ & _ & _ & _ & _ & _ & _ & GE & FO & G & D1 & D2 & A & O & MB & _).
  { discriminate. } { reflexivity. }
  { intros x X. unfold weak_building in X. cbn [bd_peak] in X. unfold weak_shape in X. cbn in X. repeat (destruct X as [<-|X]; [split; [discriminate|reflexivity]|]). destruct X. }
  exists s, w, er. split; [exact E|]. split; [exact GE|].
  rewrite (weak_first i FO) in D1, D2. change (bd_daily weak_building) with 9180 in D1, D2. change (bd_peak weak_building) with weak_shape in D1, D2.
  change (mx_vol (mkMixed 500 0 0)) with 500 in D1, D2, MB. change (st_vol (st_new 5 2)) with 5 in D1, D2.
  pose proof (weak_plant gen base b G BC BP) as ZP.
  assert (T0 : 120 == 120 + hundredths 0) by reflexivity.
  pose proof (z_run _ _ _ _ ZP _ _ _ _ _ D1 0%Z 0%Z weak_minutes T0 (Qeq_refl _) ltac:(lia) weak_demand R1) as F1.
  pose proof (z_run _ _ _ _ ZP _ _ _ _ _ D2 0%Z 5%Z weak_minutes T0 (Qeq_refl _) ltac:(lia) weak_demand R2) as F2.
  pose proof (Forall2_app F1 F2) as F12. set (ps := zrun b false 0 0 weak_minutes) in *. set (qs := zrun b false 0 5 weak_minutes) in *. clearbody ps qs.
  assert (UP : forall x, In x (l1 ++ l2) -> x <= hundredths top).
  { clear - F12 TOP. induction F12 as [|x p l r X F IH]; intros y Y; [destruct Y|]. cbn [forallb] in TOP. apply andb_prop in TOP. destruct TOP as [T1 T2].
    destruct Y as [<-|Y]; [|exact (IH T2 y Y)]. rewrite X. apply Z.leb_le in T1. apply qz_le in T1. pose proof (hun top). pose proof (hun (snd p)). lra. }
  assert (HAS : exists x, In x l1 /\ x == hundredths top).
  { clear - F1 AT. induction F1 as [|x p l r X F IH]; [discriminate|]. cbn [existsb] in AT. apply orb_prop in AT.
    destruct AT as [AT|AT]; [exists x; split; [left; reflexivity|]; apply Z.eqb_eq in AT; rewrite <- AT; exact X|].
    destruct (IH AT) as (y & Y1 & Y2). exists y. split; [right; exact Y1|exact Y2]. }
  destruct HAS as (x & X1 & X2).
  assert (W : worst == hundredths top).
  { apply Qle_antisym.
    - destruct O as [O|O]; [|exact (UP _ O)]. rewrite O. apply qz_le in TP. change (qz 0) with 0 in TP. pose proof (hun top). lra.
    - rewrite <- X2. apply A. apply in_app_iff. left. exact X1. }
  rewrite MB, W. ring.
Qed.

(** Sizing adds an element for this plant.  With an element of that very total, sizing still finds a
    shortfall, and asks for three and a half times as much again. *)
Theorem C74_sized_element_refuted : exists s1 w1 e1 s2 w2 e2,
  er_from_components weak_hs (st_new 5 2) (mkMixed 500 0 0) weak_base weak_building 120 150 110 20 1 = Ok (s1, w1) /\
  get_er_kbtuh s1 = Ok e1 /\ 0 < e1 /\
  er_from_components weak_hs (st_new 5 2) (mkMixed 500 0 0) (weak_base + e1) weak_building 120 150 110 20 1 = Ok (s2, w2) /\
  get_er_kbtuh s2 = Ok e2 /\ e2 == (7 # 2) * e1.
Proof.
  destruct weak_run1 as (A1 & A2 & A3 & A4). destruct weak_run2 as (B1 & B2 & B3 & B4).
  destruct (weak_worst weak_base 45 2 A1 A2 A3 A4 eq_refl eq_refl eq_refl ltac:(lia)) as (s1 & w1 & e1 & E1 & G1 & M1).
  assert (X1 : e1 == 500 * btu_gal_f * hundredths 2 * (60 # 1000)).
  { rewrite <- M1. unfold minute_btu. field. }
  assert (P1 : 0 < e1) by (rewrite X1; reflexivity).
  assert (M12 : minute_btu (weak_base + e1) == 500 * btu_gal_f * hundredths 47).
  { unfold minute_btu in *. assert (Q : (weak_base + e1) * 1000 / 60 == weak_base * 1000 / 60 + e1 * 1000 / 60) by field. rewrite Q, M1. reflexivity. }
  destruct (weak_worst (weak_base + e1) 47 7 B1 B2 B3 B4) as (s2 & w2 & e2 & E2 & G2 & M2); [|exact M12|reflexivity|lia|].
  { assert (0 < weak_base) by reflexivity. lra. }
  exists s1, w1, e1, s2, w2, e2. split; [exact E1|]. split; [exact G1|]. split; [exact P1|]. split; [exact E2|]. split; [exact G2|].
  assert (X2 : e2 == 500 * btu_gal_f * hundredths 7 * (60 # 1000)) by (rewrite <- M2; unfold minute_btu; field).
  rewrite X2, X1. reflexivity.
Qed.
Print Assumptions C74_sized_element_refuted.

(** An element that is ample: 1200 kBTU/h for a tenth of those draws. *)
Example C74_case : exists s w er,
  er_from_components weak_hs (st_new 5 2) (mkMixed 500 0 0) 1200 (bd_set_magnitude weak_building 918) 120 150 110 20 1 = Ok (s, w) /\
  get_er_kbtuh s = Ok er /\ er == 0.
Proof.
  assert (CG : Forall2 (gives_at (Some 30) 150 50) weak_hs [21 * 60 * (8353535 # 1000000) * 100 / 1000]) by (constructor; [|constructor]; eexists; split; reflexivity).
  apply (C74_ample_element weak_hs (st_new 5 2) (mkMixed 500 0 0) 1200 (bd_set_magnitude weak_building 918) 120 150 110 20 1 (Some 30) 50 _ eq_refl eq_refl CG);
    try reflexivity; try discriminate; intros x X; cbn in X; repeat (destruct X as [<-|X]; [try split; vm_compute; first [reflexivity|discriminate]|]); destruct X.
Qed.
