(** C82: the California daily-demand figure of multifamily buildings. *)
From Verif Require Import Prelude M_Building L_Building M_CaGpd S_CaGpd D_CaGpd L_CaGpd.
Open Scope Q_scope.

(** For any table of six unit sizes over the 365 days of a year and any six unit counts of non-zero sum, the figure is,
    to the nearest tenth, what the mix uses per unit on its 98th-percentile day: 18/25 of the way from the ninth- to the
    eighth-highest day.  At most eight days need more, and at least eight need as much. *)
Theorem C82_figure : forall rows units,
  length rows = 6%nat -> (forall r, In r rows -> length r = 365%nat) -> length units = 6%nat -> ~ units_of units == 0 ->
  exists lo hi p g,
    let days := year_days rows units in
    is_ranked days 356 lo /\ is_ranked days 357 hi /\ p == lo + (18 # 25) * (hi - lo) /\
    (above p days <= 8)%nat /\ (8 <= length (filter (Qle_bool p) days))%nat /\
    nearest_tenth (p / units_of units) g /\ ca_gpdpp rows units = Ok g.
Proof.
  intros rows units L6 LR LU NZ. destruct (totals_ok rows units ltac:(lia) LR) as (t & T & LT & F).
  destruct (percentile_98 t LT) as (lo & hi & p & P & RL & RH & PE).
  assert (S1 : forall k x, is_ranked t k x -> is_ranked (year_days rows units) k x).
  { intros k x R. eapply (ranked_scale t _ 1 k x x); [reflexivity| |ring|exact R]. eapply forall2_impl; [|exact F]. intros a b E. cbv beta in *. lra. }
  pose proof (S1 _ _ RL) as R1. pose proof (S1 _ _ RH) as R2.
  assert (LD : length (year_days rows units) = 365%nat) by (unfold year_days; rewrite map_length, seq_length; reflexivity).
  assert (OR : lo <= hi).
  { destruct (Qlt_le_dec hi lo) as [L|L]; [exfalso|exact L]. destruct R1 as [_ [B _]], R2 as [_ [_ A]]. revert A B. generalize (year_days rows units). clear - L. intros l A B.
    assert (at_most hi l <= below lo l)%nat; [|lia]. unfold at_most, below. clear - L. induction l as [|z l IH]; [reflexivity|]. cbn [filter]. destruct (Qle_bool z hi) eqn:E1, (qltb z lo) eqn:E2; cbn [length]; try lia. qbool. lra. }
  exists lo, hi, p, (round1 (p / units_of units)). cbv zeta. split; [exact R1|]. split; [exact R2|]. split; [exact PE|].
  assert (PB : lo <= p <= hi) by lra.
  split; [|split; [|split; [apply round1_nearest|]]].
  - destruct R1 as [_ [_ A]]. revert A LD. generalize (year_days rows units). clear - PB. intros l A LD.
    assert (above p l + at_most lo l <= length l)%nat; [|lia]. unfold above, at_most. clear - PB. induction l as [|z l IH]; [reflexivity|]. cbn [filter].
    destruct (Qle_bool z lo) eqn:E1, (qltb p z) eqn:E2; cbn [length]; try lia. qbool. lra.
  - destruct R2 as [_ [B _]]. revert B LD. generalize (year_days rows units). clear - PB. intros l B LD.
    assert (length l <= length (filter (Qle_bool p) l) + below hi l)%nat; [|lia]. unfold below. clear - PB. induction l as [|z l IH]; [reflexivity|]. cbn [filter].
    destruct (Qle_bool p z) eqn:E1, (qltb z hi) eqn:E2; cbn [length]; try lia. qbool. lra.
  - unfold ca_gpdpp. rewrite T. cbn [bind]. rewrite P. cbn [bind]. rewrite qdiv_ok by exact NZ. cbn [bind]. reflexivity.
Qed.
Print Assumptions C82_figure.

(** Ten times as many units of each size: the same figure. *)
Theorem C82_scaling : forall rows units k g,
  length rows = 6%nat -> (forall r, In r rows -> length r = 365%nat) -> length units = 6%nat -> ~ units_of units == 0 -> (0 < k)%Z ->
  ca_gpdpp rows units = Ok g -> exists g', ca_gpdpp rows (map (Z.mul k) units) = Ok g' /\ g' == g.
Proof.
  intros rows units k g L6 LR LU NZ K H.
  assert (KP : 0 < qz k) by (unfold qz; change 0 with (inject_Z 0); rewrite <- Zlt_Qlt; exact K).
  assert (UO : units_of (map (Z.mul k) units) == qz k * units_of units).
  { unfold units_of. assert (E : fold_right Z.add 0%Z (map (Z.mul k) units) = (k * fold_right Z.add 0%Z units)%Z).
    { clear. induction units as [|u l IH]; cbn [map fold_right]; [lia|]. rewrite IH. lia. }
    rewrite E. unfold qz. rewrite inject_Z_mult. reflexivity. }
  assert (NZ' : ~ units_of (map (Z.mul k) units) == 0).
  { rewrite UO. intro E. apply Qmult_integral in E. destruct E as [E|E]; [lra|exact (NZ E)]. }
  destruct (C82_figure rows units L6 LR LU NZ) as (lo & hi & p & g0 & R1 & R2 & PE & _ & _ & NT & G0). rewrite H in G0. apply ok_inj in G0. subst g0.
  destruct (C82_figure rows (map (Z.mul k) units) L6 LR ltac:(rewrite map_length; exact LU) NZ') as (lo' & hi' & p' & g' & R1' & R2' & PE' & _ & _ & NT' & G').
  exists g'. split; [exact G'|].
  assert (F : Forall2 (fun a b => b == qz k * a) (year_days rows units) (year_days rows (map (Z.mul k) units))).
  { unfold year_days. generalize (seq 0 365). clear. induction l as [|d l IH]; cbn [map]; constructor; [|exact IH]. clear.
    revert units. induction rows as [|r rows IH]; intros [|u units]; cbn [day_gallons map]; try ring. rewrite IH. unfold qz. rewrite inject_Z_mult. ring. }
  assert (E1 : lo' == qz k * lo) by (eapply ranked_unique; [exact R1'|]; eapply (ranked_scale _ _ (qz k) 356 lo); [exact KP|exact F|reflexivity|exact R1]).
  assert (E2 : hi' == qz k * hi) by (eapply ranked_unique; [exact R2'|]; eapply (ranked_scale _ _ (qz k) 357 hi); [exact KP|exact F|reflexivity|exact R2]).
  eapply (nearest_unique _ _ _ _ _ NT' NT). Unshelve.
  rewrite PE', PE, E1, E2, UO. field. split; [exact NZ|lra].
Qed.
Print Assumptions C82_scaling.

(** A building with units of one size only: the 98th-percentile day of that size, whatever the number. *)
Theorem C82_one_size : forall rows i n row lo hi,
  length rows = 6%nat -> (forall r, In r rows -> length r = 365%nat) -> nth_error rows i = Some row -> (0 < n)%Z ->
  is_ranked row 356 lo -> is_ranked row 357 hi ->
  exists g, ca_gpdpp rows (repeat 0%Z i ++ [n] ++ repeat 0%Z (5 - i)) = Ok g /\ nearest_tenth (lo + (18 # 25) * (hi - lo)) g.
Proof.
  intros rows i n row lo hi L6 LR NR N R1 R2.
  assert (I6 : (i < 6)%nat) by (rewrite <- L6; apply nth_error_Some; congruence).
  set (units := repeat 0%Z i ++ [n] ++ repeat 0%Z (5 - i)).
  assert (LU : length units = 6%nat) by (unfold units; rewrite !app_length, !repeat_length; cbn [length]; lia).
  assert (NP : 0 < qz n) by (unfold qz; change 0 with (inject_Z 0); rewrite <- Zlt_Qlt; exact N).
  assert (Z0 : forall m, fold_right Z.add 0%Z (repeat 0%Z m) = 0%Z) by (intro m; induction m as [|m IH]; cbn; [reflexivity|exact IH]).
  assert (US : units_of units == qz n).
  { unfold units_of, units. assert (E : fold_right Z.add 0%Z (repeat 0%Z i ++ [n] ++ repeat 0%Z (5 - i)) = n).
    { rewrite fold_right_app. cbn [app fold_right]. rewrite Z0. clear. induction i as [|i IH]; cbn [repeat fold_right]; lia. }
    rewrite E. reflexivity. }
  assert (DG : forall d, day_gallons rows units d == qz n * nth d row 0).
  { intro d. unfold units. clear - NR.
    assert (ZZ : forall m rs, day_gallons rs (repeat 0%Z m) d == 0).
    { induction m as [|m IH]; intros [|r rs]; cbn [repeat day_gallons]; try reflexivity. rewrite IH. change (qz 0) with 0. ring. }
    revert rows NR. generalize (5 - i)%nat. induction i as [|i IH]; intros m [|r rows] NR; cbn [nth_error] in NR; try discriminate NR.
    - injection NR as ->. cbn [repeat app day_gallons]. rewrite ZZ. ring.
    - cbn [repeat app day_gallons]. rewrite (IH m rows NR). change (qz 0) with 0. ring. }
  assert (LW : length row = 365%nat) by (apply LR; exact (nth_error_In _ _ NR)).
  assert (F : Forall2 (fun a b => b == qz n * a) row (year_days rows units)).
  { unfold year_days. rewrite <- LW. clear - DG.
    assert (G : forall l k, (forall d, (d < length l)%nat -> nth (k + d) row 0 = nth d l 0) -> Forall2 (fun a b => b == qz n * a) l (map (day_gallons rows units) (seq k (length l)))).
    { induction l as [|x l IH]; intros k H; cbn [length seq map]; constructor.
      - rewrite DG. pose proof (H 0%nat ltac:(cbn [length]; lia)) as H0. rewrite Nat.add_0_r in H0. rewrite H0. reflexivity.
      - apply IH. intros d D. specialize (H (S d) ltac:(cbn [length]; lia)). rewrite <- Nat.add_succ_comm in H. exact H. }
    apply G. intros d _. reflexivity. }
  destruct (C82_figure rows units L6 LR LU ltac:(rewrite US; lra)) as (lo' & hi' & p & g & Q1 & Q2 & PE & _ & _ & NT & G).
  assert (E1 : lo' == qz n * lo) by (eapply ranked_unique; [exact Q1|]; eapply (ranked_scale _ _ (qz n) 356 lo); [exact NP|exact F|reflexivity|exact R1]).
  assert (E2 : hi' == qz n * hi) by (eapply ranked_unique; [exact Q2|]; eapply (ranked_scale _ _ (qz n) 357 hi); [exact NP|exact F|reflexivity|exact R2]).
  exists g. split; [exact G|].
  assert (X : p / units_of units == lo + (18 # 25) * (hi - lo)) by (rewrite PE, E1, E2, US; field; lra).
  destruct NT as (z & A & B & C). exists z. split; [exact A|]. rewrite <- X. split; assumption.
Qed.
Print Assumptions C82_one_size.

(** The figure lies between the least and the most that any unit size uses on any day. *)
Theorem C82_bounds : forall rows units g a b,
  length rows = 6%nat -> (forall r, In r rows -> length r = 365%nat) -> length units = 6%nat ->
  (forall n, In n units -> (0 <= n)%Z) -> ~ units_of units == 0 ->
  (forall r x, In r rows -> In x r -> a <= x <= b) -> ca_gpdpp rows units = Ok g ->
  a - (1 # 20) <= g <= b + (1 # 20).
Proof.
  intros rows units g a b L6 LR LU NN NZ AB H.
  destruct (C82_figure rows units L6 LR LU NZ) as (lo & hi & p & g0 & [(yl & IL & EL) _] & [(yh & IH & EH) _] & PE & _ & _ & NT & G0). rewrite H in G0. apply ok_inj in G0. subst g0.
  assert (DB : forall d, (d < 365)%nat -> a * units_of units <= day_gallons rows units d <= b * units_of units).
  { intros d D. assert (LL : length rows = length units) by lia. clear - LR NN AB D LL. unfold units_of. revert units LL NN. induction rows as [|r rows IH]; intros [|u units] LL NN; try discriminate LL; cbn [day_gallons fold_right].
    - change (qz 0) with 0. lra.
    - assert (X : a <= nth d r 0 <= b) by (apply (AB r); [left; reflexivity|apply nth_In; rewrite (LR r (or_introl eq_refl)); exact D]).
      assert (U : 0 <= qz u) by (unfold qz; change 0 with (inject_Z 0); rewrite <- Zle_Qle; apply NN; left; reflexivity).
      specialize (IH (fun q Q => LR q (or_intror Q)) (fun q x Q => AB q x (or_intror Q)) units ltac:(cbn in LL; lia) (fun m M => NN m (or_intror M))).
      assert (E : qz (u + fold_right Z.add 0%Z units) == qz u + qz (fold_right Z.add 0%Z units)) by (unfold qz; rewrite inject_Z_plus; reflexivity). rewrite E.
      assert (0 <= qz u * (nth d r 0 - a)) by (apply qmul_nonneg; lra). assert (0 <= qz u * (b - nth d r 0)) by (apply qmul_nonneg; lra). lra. }
  assert (UP : 0 < units_of units).
  { assert (0 <= fold_right Z.add 0 units)%Z by (clear - NN; induction units as [|u l IH]; cbn [fold_right]; [lia|]; specialize (IH (fun m M => NN m (or_intror M))); pose proof (NN u (or_introl eq_refl)); lia).
    assert (0 <= units_of units) by (unfold units_of, qz; change 0 with (inject_Z 0); rewrite <- Zle_Qle; exact H0). destruct (Qle_lt_or_eq _ _ H1) as [|E]; [assumption|]. exfalso. apply NZ. rewrite <- E. reflexivity. }
  unfold year_days in IL, IH. apply in_map_iff in IL, IH. destruct IL as (dl & <- & DL), IH as (dh & <- & DH). apply in_seq in DL, DH.
  pose proof (DB dl ltac:(lia)) as B1. pose proof (DB dh ltac:(lia)) as B2. rewrite EL in B1. rewrite EH in B2.
  assert (PB : a * units_of units <= p <= b * units_of units) by lra.
  assert (XB : a <= p / units_of units <= b).
  { set (x := p / units_of units). assert (XE : x * units_of units == p) by (unfold x; field; lra). clearbody x. split.
    - destruct (Qlt_le_dec x a) as [L|L]; [|exact L]. assert (0 < (a - x) * units_of units) by (apply qmul_pos; lra). lra.
    - destruct (Qlt_le_dec b x) as [L|L]; [|exact L]. assert (0 < (x - b) * units_of units) by (apply qmul_pos; lra). lra. }
  destruct NT as (z & GE & A & _). apply Qabs_Qle_condition in A.
  assert (G10 : g * 10 == qz z) by (rewrite GE; field). lra.
Qed.
Print Assumptions C82_bounds.

(** Constructing a multifamily building by the California standard: the daily volume is the figure times the
    magnitude, whatever per-person figure is also given; without six counts of non-zero sum it raises. *)
Theorem C82_building : forall lib rows m cp ca gp units, 0 < m ->
  (forall u g, ca_gpdpp rows u = Ok g -> lib_ca_gpdpp lib u = g) ->
  length rows = 6%nat -> (forall r, In r rows -> length r = 365%nat) ->
  (forall l, units = Some l -> length l = 6%nat -> ~ units_of l == 0 -> forall vol p a,
     compute_single lib (Some "multi_family"%string) (Some m) cp ca gp (Some "ca"%string) units = Ok (vol, p, a) ->
     exists g, ca_gpdpp rows l = Ok g /\ vol = g * m) /\
  ((forall l, units = Some l -> length l <> 6%nat \/ units_of l == 0) ->
     compute_single lib (Some "multi_family"%string) (Some m) cp ca gp (Some "ca"%string) units = Err ValueError).
Proof.
  intros lib rows m cp ca gp units M LB L6 LR. assert (MB : Qle_bool m 0 = false) by (apply Bool.not_true_is_false; intro C; qbool; lra).
  assert (UZ : forall l, units_of l == 0 <-> fold_right Z.add 0%Z l = 0%Z).
  { intro l. unfold units_of, qz. change 0 with (inject_Z 0). split; [apply inject_Z_injective|intros ->; reflexivity]. }
  split.
  - intros l -> L NZ vol p a H. destruct (C82_figure rows l L6 LR L NZ) as (lo & hi & q & g & _ & _ & _ & _ & _ & _ & G). exists g. split; [exact G|].
    unfold compute_single in H. rewrite MB in H. cbn [String.eqb Ascii.eqb Bool.eqb] in H.
    unfold mf_gpdpp in H. cbn [existsb String.eqb Ascii.eqb Bool.eqb orb negb] in H. rewrite L in H. cbn [Nat.eqb negb orb] in H.
    destruct (Z.eqb_spec (fold_right Z.add 0%Z l) 0) as [E|E]; [exfalso; apply NZ, UZ; exact E|].
    cbn [bind] in H. rewrite (LB l g G) in H. destruct (bind_ok _ _ _ H) as (p' & _ & H'). destruct (bind_ok _ _ _ H') as (a' & _ & H''). apply ok_inj in H''. injection H'' as <- _ _. reflexivity.
  - intro BAD. unfold compute_single. rewrite MB. cbn [String.eqb Ascii.eqb Bool.eqb]. unfold mf_gpdpp. cbn [existsb String.eqb Ascii.eqb Bool.eqb orb negb].
    destruct units as [l|]; [|reflexivity].
    assert (E : (negb (Nat.eqb (length l) 6) || (fold_right Z.add 0 l =? 0)%Z)%bool = true).
    { destruct (BAD l eq_refl) as [N|Z]; apply Bool.orb_true_iff; [left; apply Bool.negb_true_iff, Nat.eqb_neq; exact N|right; apply Z.eqb_eq, UZ; exact Z]. }
    rewrite E. reflexivity.
Qed.
Print Assumptions C82_building.

(** The shipped table: a building with units of one size only uses, per unit, 34.6, 32.5, 27.7, 25.9, 24.7 or 24.5
    gallons a day. *)
Theorem C82_shipped : forall i n g, (0 < n)%Z ->
  nth_error [34.6; 32.5; 27.7; 25.9; 24.7; 24.5] i = Some g ->
  exists g', ca_gpdpp shipped_ca_rows (repeat 0%Z i ++ [n] ++ repeat 0%Z (5 - i)) = Ok g' /\ g' == g.
Proof.
  assert (RK : forall l k x, (existsb (Qeq_bool x) l && (below x l <=? k)%nat && (k <? at_most x l)%nat)%bool = true -> is_ranked l k x).
  { intros l k x H. apply andb_prop in H. destruct H as [H A]. apply andb_prop in H. destruct H as [E B]. apply existsb_exists in E. destruct E as (y & I & E).
    apply Qeq_bool_iff in E. apply Nat.leb_le in B. apply Nat.ltb_lt in A. split; [exists y; split; [exact I|rewrite E; reflexivity]|split; assumption]. }
  assert (L6 : length shipped_ca_rows = 6%nat) by reflexivity.
  assert (LR : forall r, In r shipped_ca_rows -> length r = 365%nat).
  { assert (A : forallb (fun r => Nat.eqb (length r) 365) shipped_ca_rows = true) by (vm_compute; reflexivity). intros r R. rewrite forallb_forall in A. apply Nat.eqb_eq. exact (A r R). }
  assert (SH : forall i row lo hi z, nth_error shipped_ca_rows i = Some row ->
    (existsb (Qeq_bool lo) row && (below lo row <=? 356)%nat && (356 <? at_most lo row)%nat)%bool = true ->
    (existsb (Qeq_bool hi) row && (below hi row <=? 357)%nat && (357 <? at_most hi row)%nat)%bool = true ->
    Qabs (qz z - 10 * (lo + (18 # 25) * (hi - lo))) < 1 # 2 ->
    forall n, (0 < n)%Z -> exists g', ca_gpdpp shipped_ca_rows (repeat 0%Z i ++ [n] ++ repeat 0%Z (5 - i)) = Ok g' /\ g' == qz z / 10).
  { intros i row lo hi z NR R1 R2 NT n N. destruct (C82_one_size shipped_ca_rows i n row lo hi L6 LR NR N (RK _ _ _ R1) (RK _ _ _ R2)) as (g & G & T).
    exists g. split; [exact G|]. eapply nearest_unique; [reflexivity|exact T|]. exists z. split; [reflexivity|]. split; [lra|]. intro E. lra. }
  intros i n g N NE.
  destruct i as [|i]; [cbn [nth_error] in NE; injection NE as <-; apply (SH 0%nat (nth 0 shipped_ca_rows []) (345201 # 10000) (345921 # 10000) 346%Z); [reflexivity|vm_compute; reflexivity|vm_compute; reflexivity|vm_compute; reflexivity|exact N]|].
  destruct i as [|i]; [cbn [nth_error] in NE; injection NE as <-; apply (SH 1%nat (nth 1 shipped_ca_rows []) (321396 # 10000) (326876 # 10000) 325%Z); [reflexivity|vm_compute; reflexivity|vm_compute; reflexivity|vm_compute; reflexivity|exact N]|].
  destruct i as [|i]; [cbn [nth_error] in NE; injection NE as <-; apply (SH 2%nat (nth 2 shipped_ca_rows []) (271320 # 10000) (278621 # 10000) 277%Z); [reflexivity|vm_compute; reflexivity|vm_compute; reflexivity|vm_compute; reflexivity|exact N]|].
  destruct i as [|i]; [cbn [nth_error] in NE; injection NE as <-; apply (SH 3%nat (nth 3 shipped_ca_rows []) (254688 # 10000) (260407 # 10000) 259%Z); [reflexivity|vm_compute; reflexivity|vm_compute; reflexivity|vm_compute; reflexivity|exact N]|].
  destruct i as [|i]; [cbn [nth_error] in NE; injection NE as <-; apply (SH 4%nat (nth 4 shipped_ca_rows []) (239835 # 10000) (250418 # 10000) 247%Z); [reflexivity|vm_compute; reflexivity|vm_compute; reflexivity|vm_compute; reflexivity|exact N]|].
  destruct i as [|i]; [cbn [nth_error] in NE; injection NE as <-; apply (SH 5%nat (nth 5 shipped_ca_rows []) (244452 # 10000) (244941 # 10000) 245%Z); [reflexivity|vm_compute; reflexivity|vm_compute; reflexivity|vm_compute; reflexivity|exact N]|].
  destruct i; discriminate NE.
Qed.
Print Assumptions C82_shipped.

(** The hypotheses hold for the shipped table and a mix of studios and two-bedroom flats. *)
Example C82_case : length shipped_ca_rows = 6%nat /\ forallb (fun r => Nat.eqb (length r) 365) shipped_ca_rows = true /\
  ~ units_of [3; 0; 5; 0; 0; 0]%Z == 0 /\ exists g, ca_gpdpp shipped_ca_rows [3; 0; 5; 0; 0; 0]%Z = Ok g.
Proof.
  assert (A : forallb (fun r => Nat.eqb (length r) 365) shipped_ca_rows = true) by (vm_compute; reflexivity).
  split; [reflexivity|]. split; [exact A|]. split; [discriminate|].
  destruct (C82_figure shipped_ca_rows [3; 0; 5; 0; 0; 0]%Z) as (lo & hi & p & g & _ & _ & _ & _ & _ & _ & G); [reflexivity| |reflexivity|discriminate|exists g; exact G].
  intros r R. rewrite forallb_forall in A. apply Nat.eqb_eq. exact (A r R).
Qed.
