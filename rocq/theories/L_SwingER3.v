(** Lemmas for C74: an exact two-day run of the resistance sizing in whole hundredths of a degree. *)
From Verif Require Import Prelude M_Swing S_Swing.
Open Scope Q_scope.

(** ** An element that heats the whole draw *)

Lemma er_days_ample k gen full : 0 < tk_vol k -> tk_inlet k < tk_supply k -> tk_supply k <= tk_storage k ->
  forall on t level dem l, er_days k gen full on t level dem l -> tk_supply k <= t ->
  (forall x, In x dem -> 0 <= x /\ x * btu_gal_f * (tk_supply k - tk_inlet k) + minute_btu (tk_loss k) <= minute_btu (tk_cap k)) ->
  forall x, In x l -> x == 0.
Proof.
  intros V0 IN ST on t level dem l H. induction H as [on t level|on t level demand r hw feed t2 on' t3 run short rest t' level' MD FH ID TH SH T' LV H IH]; intros T DM x X; [destruct X|].
  assert (BP : 0 < btu_gal_f) by reflexivity.
  destruct (DM demand (or_introl eq_refl)) as [D0 D1].
  assert (HW : 0 <= hw).
  { unfold meets_demand in MD. apply Qnot_lt_le. intro L. assert (0 < (- hw) * (t - tk_inlet k)) by (apply Qmult_lt_0_compat; lra).
    assert (0 <= demand * (tk_supply k - tk_inlet k)) by (apply Qmult_le_0_compat; lra). lra. }
  assert (FI : 0 <= hw * (feed - tk_inlet k)).
  { unfold feed_heat in FH. rewrite FH. apply Qmult_le_0_compat; [|lra]. apply qmin_glb; [exact HW|apply qmax_l]. }
  set (VB := tk_vol k * btu_gal_f) in *. assert (VP : 0 < VB) by (apply Qmult_lt_0_compat; assumption).
  assert (LO : VB * t <= VB * t2 + minute_btu (tk_cap k)).
  { unfold idle_temp in ID. fold VB in ID. unfold meets_demand in MD.
    assert (E1 : hw * btu_gal_f * (feed - t) == btu_gal_f * (hw * (feed - tk_inlet k)) - btu_gal_f * (hw * (t - tk_inlet k))) by ring.
    rewrite E1, MD in ID. assert (0 <= btu_gal_f * (hw * (feed - tk_inlet k))) by (apply Qmult_le_0_compat; lra).
    set (A := btu_gal_f * (hw * (feed - tk_inlet k))) in *. clearbody A.
    assert (E2 : btu_gal_f * (demand * (tk_supply k - tk_inlet k)) == demand * btu_gal_f * (tk_supply k - tk_inlet k)) by ring. rewrite E2 in ID.
    assert (E3 : VB * (t2 - t) == VB * t2 - VB * t) by ring. lra. }
  assert (T3 : tk_supply k <= t3).
  { destruct TH as (HT & [R0 R1] & TH). fold VB in HT. assert (E3 : VB * (t3 - t2) == VB * t3 - VB * t2) by ring.
    assert (GE : VB * tk_supply k <= VB * t3 -> tk_supply k <= t3) by (intro Y; apply (Qmult_le_l _ _ VB VP); exact Y).
    assert (VT : VB * tk_supply k <= VB * t) by (apply Qmult_le_l; assumption).
    destruct on.
    - destruct TH as [(_ & R & _)|(_ & L & _)]; [|lra]. apply GE. rewrite R in HT. lra.
    - destruct TH as [(L & _ & R)|(L & _ & [R|R] & _)]; [| |lra].
      + rewrite R in HT. apply Qnot_lt_le. intro Y. assert (VB * t3 < VB * t2) by (apply Qmult_lt_l; lra). lra.
      + apply GE. rewrite R in HT. lra. }
  assert (S0 : short == 0).
  { rewrite SH. destruct (qmax_spec 0 (tk_supply k - t3)) as [[Y E]|[Y E]]; rewrite E; lra. }
  destruct X as [<-|X]; [exact S0|]. apply IH; [lra|intros y Y; apply DM; right; exact Y|exact X].
Qed.

(** ** A run in hundredths of a degree *)

(** The plant of the counterexample: 500 gallon swing tank, 120 F supply, 150 F storage, 50 F inlet, a loop
    losing 0.4 degrees a minute; the primary makes 21 gallons a minute and stores 5; draws of 30.5 and 31
    gallons a minute, or none. *)
Inductive draw := Idle | Long | Peak.
Definition gallons (d : draw) : Q := match d with Idle => 0 | Long => 61 # 2 | Peak => 31 end.

(** One minute: element on, hundredths above supply, gallons stored; then the hundredths short. *)
Definition zmix (z lev : Z) (d : draw) : Z :=
  match d with Idle => z - 40 | Long => z - 47 + 20 * lev | Peak => z - 54 + 20 * lev end%Z.
Definition zlev (d : draw) : Z := match d with Idle => 5%Z | _ => 0%Z end.
Definition zheat (b : Z) (on : bool) (z2 : Z) : bool * Z :=
  (if on then if 800 <? z2 + b then (false, Z.max z2 800) else (true, z2 + b)
   else if z2 <=? 0 then (true, Z.min (z2 + b) 0) else (false, z2))%Z.
Fixpoint zrun (b : Z) (on : bool) (z lev : Z) (l : list draw) : list (Z * Z) :=
  match l with
  | [] => []
  | d :: r =>
      let '(on', z3) := zheat b on (zmix z lev d) in
      (z, Z.max 0 (- z3))%Z :: zrun b on' (Z.max z3 0) (zlev d) r
  end.

Definition hundredths (z : Z) : Q := qz z / 100.
Lemma hun z : hundredths z * 100 == qz z. Proof. unfold hundredths. field. Qed.
Lemma qz_le a b : (a <= b)%Z <-> qz a <= qz b. Proof. unfold qz. rewrite <- Zle_Qle. reflexivity. Qed.
Lemma qz_lt a b : (a < b)%Z <-> qz a < qz b. Proof. unfold qz. rewrite <- Zlt_Qlt. reflexivity. Qed.
Lemma qz_add a b : qz (a + b) == qz a + qz b. Proof. unfold qz. rewrite inject_Z_plus. reflexivity. Qed.
Lemma qz_sub a b : qz (a - b) == qz a - qz b. Proof. unfold qz, Z.sub. rewrite inject_Z_plus, inject_Z_opp. reflexivity. Qed.
Lemma qz_mul a b : qz (a * b) == qz a * qz b. Proof. unfold qz. rewrite inject_Z_mult. reflexivity. Qed.
Lemma qz_opp a : qz (- a) == - qz a. Proof. unfold qz. rewrite inject_Z_opp. reflexivity. Qed.

(** The tank of the counterexample, with an element that gives [b] hundredths of a degree in a minute. *)
Record zplant (k : swing_tank) (gen full : Q) (b : Z) : Prop := {
  zp_supply : tk_supply k == 120; zp_storage : tk_storage k == 150; zp_inlet : tk_inlet k == 50; zp_vol : tk_vol k == 500;
  zp_loss : minute_btu (tk_loss k) == 500 * btu_gal_f * (40 # 100); zp_gen : gen == 21; zp_full : full == 5;
  zp_cap : minute_btu (tk_cap k) == 500 * btu_gal_f * hundredths b; zp_b : (0 < b)%Z }.

Lemma z_mix k gen full b t level hw feed t2 demand d z lev : zplant k gen full b -> t == 120 + hundredths z -> (0 <= z <= 950)%Z ->
  level == qz lev -> (0 <= lev <= 5)%Z ->
  demand == gallons d -> meets_demand k t demand hw -> feed_heat k hw (level + gen) feed -> idle_temp k t hw feed t2 ->
  t2 == 120 + hundredths (zmix z lev d) /\ qmin (qmax (level + gen - hw) 0) full == qz (zlev d).
Proof.
  intros [P1 P2 P3 P4 P5 P6 P7 P8 P9] ET [Z0 Z1] EL [L0 L1] ED MD FH ID.
  assert (BP : 0 < btu_gal_f) by reflexivity.
  apply qz_le in Z0, Z1, L0, L1. change (qz 0) with 0 in *. change (qz 950) with 950 in Z1. change (qz 5) with 5 in L1.
  rewrite <- EL in L0, L1.
  pose proof (hun z) as HZ. assert (HB : 0 <= hundredths z <= 19 # 2) by lra. set (h := hundredths z) in *. clearbody h.
  unfold meets_demand in MD. rewrite ET, P1, P3, ED in MD. unfold feed_heat in FH. rewrite P2, P3 in FH.
  unfold idle_temp in ID. rewrite P4, P5, ET in ID.
  assert (E1 : hw * btu_gal_f * (feed - (120 + h)) == btu_gal_f * (hw * (feed - 50) - hw * (120 + h - 50))) by ring.
  rewrite E1, MD, FH in ID. clear E1 FH.
  assert (HG : d = Idle /\ hw == 0 \/ d <> Idle /\ level + 21 <= hw).
  { destruct d; cbn [gallons] in MD.
    - left. split; [reflexivity|]. assert (hw * (120 + h - 50) == 0) by (rewrite MD; ring). apply Qmult_integral in H. destruct H; lra.
    - right. split; [discriminate|]. apply Qnot_lt_le. intro L. assert (0 < (26 - hw) * (120 + h - 50)) by (apply Qmult_lt_0_compat; lra). lra.
    - right. split; [discriminate|]. apply Qnot_lt_le. intro L. assert (0 < (26 - hw) * (120 + h - 50)) by (apply Qmult_lt_0_compat; lra). lra. }
  assert (HOT : qmin hw (qmax 0 (level + gen)) == match d with Idle => 0 | _ => level + 21 end).
  { destruct (qmax_spec 0 (level + gen)) as [[Y E]|[Y E]]; rewrite E; [|lra].
    destruct (qmin_spec hw (level + gen)) as [[Y' E']|[Y' E']]; rewrite E'; destruct d; destruct HG as [[DI HG]|[ND HG]]; try congruence; try discriminate; lra. }
  rewrite HOT in ID.
  assert (E2 : 500 * (t2 - (120 + h)) == match d with Idle => 0 | _ => level + 21 end * (150 - 50) - gallons d * (120 - 50) - 500 * (40 # 100)).
  { apply (Qmult_inj_l _ _ btu_gal_f); [lra|]. set (u := match d with Idle => 0 | _ => level + 21 end) in *. clearbody u. lra. }
  split.
  - pose proof (hun (zmix z lev d)) as HM. destruct d; cbn [zmix gallons] in *; rewrite ?qz_add, ?qz_sub, ?qz_mul, ?qz_sub in HM;
      change (qz 40) with 40 in *; change (qz 47) with 47 in *; change (qz 54) with 54 in *; change (qz 20) with 20 in *; lra.
  - destruct (qmax_spec (level + gen - hw) 0) as [[Y E]|[Y E]]; rewrite E; [destruct (qmin_spec 0 full) as [[Y' E']|[Y' E']]|destruct (qmin_spec (level + gen - hw) full) as [[Y' E']|[Y' E']]]; rewrite E';
      destruct d; destruct HG as [[DI HG]|[ND HG]]; try congruence; try discriminate; cbn [zlev]; try change (qz 5) with 5; try change (qz 0) with 0; lra.
Qed.

Lemma z_heat k gen full b on t2 on' t3 run z2 : zplant k gen full b -> t2 == 120 + hundredths z2 ->
  thermostat k on t2 on' t3 run -> on' = fst (zheat b on z2) /\ t3 == 120 + hundredths (snd (zheat b on z2)).
Proof.
  intros [P1 P2 P3 P4 P5 P6 P7 P8 P9] ET TH. assert (BP : 0 < btu_gal_f) by reflexivity.
  destruct TH as (HT & [R0 R1] & TH). rewrite P4, P8 in HT.
  assert (HT' : t3 - t2 == run * hundredths b).
  { apply (Qmult_inj_l _ _ (500 * btu_gal_f)); [lra|]. rewrite HT. ring. }
  clear HT. pose proof (hun b) as HB. pose proof (hun z2) as HZ. apply qz_lt in P9. change (qz 0) with 0 in P9.
  assert (HP : 0 < hundredths b) by lra. unfold zheat.
  destruct on.
  - rewrite P1, P4, P8 in TH. destruct TH as [(-> & RE & LE)|(-> & GE & OR & LT)].
    + rewrite RE in HT'. destruct (Z.ltb_spec 800 (z2 + b)) as [L|L]; cbn [fst snd].
      * exfalso. apply qz_lt in L. rewrite qz_add in L. change (qz 800) with 800 in L. lra.
      * split; [reflexivity|]. pose proof (hun (z2 + b)) as HS. rewrite qz_add in HS. lra.
    + assert (LT' : 120 + 8 - t2 < hundredths b).
      { apply (Qmult_lt_l _ _ (500 * btu_gal_f)); [reflexivity|]. exact LT. }
      destruct (Z.ltb_spec 800 (z2 + b)) as [L|L]; cbn [fst snd].
      * split; [reflexivity|]. destruct (Z.max_spec z2 800) as [[M E]|[M E]]; rewrite E.
        -- pose proof (hun 800) as H8. change (qz 800) with 800 in H8. apply qz_lt in M. change (qz 800) with 800 in M.
           destruct OR as [OR|OR]; [rewrite OR in HT'; lra|lra].
        -- apply qz_le in M. change (qz 800) with 800 in M. destruct OR as [OR|OR]; [rewrite OR in HT'; lra|].
           assert (0 <= run * hundredths b) by (apply Qmult_le_0_compat; lra). set (u := run * hundredths b) in *. clearbody u. lra.
      * exfalso. apply qz_le in L. rewrite qz_add in L. change (qz 800) with 800 in L. lra.
  - rewrite P1 in TH. destruct TH as [(GT & -> & RE)|(LE & -> & OR & LE')].
    + rewrite RE in HT'. destruct (Z.leb_spec z2 0) as [L|L]; cbn [fst snd].
      * exfalso. apply qz_le in L. change (qz 0) with 0 in L. lra.
      * split; [reflexivity|lra].
    + destruct (Z.leb_spec z2 0) as [L|L]; cbn [fst snd].
      * split; [reflexivity|]. pose proof (hun (z2 + b)) as HS. rewrite qz_add in HS. assert (run * hundredths b <= 1 * hundredths b) by (apply Qmult_le_compat_r; lra).
        destruct (Z.min_spec (z2 + b) 0) as [[M E]|[M E]]; rewrite E.
        -- apply qz_lt in M. rewrite qz_add in M. change (qz 0) with 0 in M. destruct OR as [OR|OR]; [rewrite OR in HT'; lra|].
           exfalso. set (u := run * hundredths b) in *. clearbody u. lra.
        -- apply qz_le in M. rewrite qz_add in M. change (qz 0) with 0 in M. pose proof (hun 0) as H0. change (qz 0) with 0 in H0.
           destruct OR as [OR|OR]; [rewrite OR in HT'; lra|lra].
      * exfalso. apply qz_lt in L. change (qz 0) with 0 in L. lra.
Qed.

Definition in_range (p : Z * Z) : bool := ((0 <=? fst p) && (fst p <=? 950))%Z.
Lemma z_run k gen full b : zplant k gen full b -> forall on t level dem l, er_days k gen full on t level dem l ->
  forall z lev ds, t == 120 + hundredths z -> level == qz lev -> (0 <= lev <= 5)%Z -> Forall2 (fun x d => x == gallons d) dem ds ->
  forallb in_range (zrun b on z lev ds) = true -> Forall2 (fun x p => x == hundredths (snd p)) l (zrun b on z lev ds).
Proof.
  intros ZP on t level dem l H. induction H as [on t level|on t level demand r hw feed t2 on' t3 run short rest t' level' MD FH ID TH SH T' LV H IH];
    intros z lev ds ET EL LB F R; inversion F as [|x d xs ds' D F']; subst; [constructor|].
  cbn [zrun] in *. destruct (zheat b on (zmix z lev d)) as [on2 z3] eqn:EZ. cbn [forallb] in R. apply andb_prop in R. destruct R as [R1 R2].
  assert (RZ : (0 <= z <= 950)%Z) by (unfold in_range in R1; cbn [fst] in R1; lia).
  destruct (z_mix _ _ _ _ _ _ _ _ _ _ _ _ _ ZP ET RZ EL LB D MD FH ID) as [M1 M2].
  destruct (z_heat _ _ _ _ _ _ _ _ _ _ ZP M1 TH) as [H1 H2]. rewrite EZ in H1, H2. cbn [fst snd] in H1, H2. subst on'.
  assert (SQ : short == hundredths (Z.max 0 (- z3))).
  { rewrite SH. pose proof (zp_supply _ _ _ _ ZP) as PS. pose proof (hun z3) as HZ. pose proof (hun (Z.max 0 (- z3))) as HM.
    destruct (Z.max_spec 0 (- z3)) as [[M E]|[M E]]; rewrite E in *; [apply qz_lt in M|apply qz_le in M]; rewrite ?qz_opp in *; change (qz 0) with 0 in *;
      destruct (qmax_spec 0 (tk_supply k - t3)) as [[Y E']|[Y E']]; rewrite E'; lra. }
  constructor; [exact SQ|]. apply IH.
  - rewrite T', H2, SQ. pose proof (hun z3) as HZ. pose proof (hun (Z.max 0 (- z3))) as HM. pose proof (hun (Z.max z3 0)) as HX.
    destruct (Z.max_spec 0 (- z3)) as [[M E]|[M E]]; destruct (Z.max_spec z3 0) as [[M' E']|[M' E']]; rewrite E, E' in *; rewrite ?qz_opp in *; change (qz 0) with 0 in *; try lia; try lra.
  - rewrite LV. exact M2.
  - destruct d; cbn [zlev]; lia.
  - exact F'.
  - exact R2.
Qed.

Lemma by_hour {A} (f : nat -> A) : forall h, map (fun n => f (n / 60)%nat) (seq 0 (h * 60)) = flat_map (fun j => repeat (f j) 60) (seq 0 h).
Proof.
  induction h as [|h IH]; [reflexivity|]. replace (S h * 60)%nat with (h * 60 + 60)%nat by lia. rewrite seq_app, map_app, IH, (seq_S h 0), flat_map_app. f_equal.
  cbn [Nat.add flat_map]. rewrite app_nil_r. assert (forall m, (m <= 60)%nat -> map (fun n => f (n / 60)%nat) (seq (h * 60) m) = repeat (f h) m) as G.
  { induction m as [|m IHm]; intro L; [reflexivity|]. rewrite seq_S, map_app, IHm by lia. cbn [map]. replace ((h * 60 + m) / 60)%nat with h.
    - change (repeat (f h) (S m)) with (f h :: repeat (f h) m). rewrite <- repeat_cons. reflexivity.
    - symmetry. rewrite Nat.add_comm. rewrite Nat.div_add by lia. rewrite Nat.div_small by lia. reflexivity. }
  apply (G 60%nat). lia.
Qed.
