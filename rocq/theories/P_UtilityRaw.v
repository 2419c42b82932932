(** C85: tariffs given by single numbers. *)
From Verif Require Import Prelude M_Building S_Building M_Utility S_Utility L_Utility L_Utility2 P_Utility M_UtilityRaw S_UtilityRaw.
Open Scope Q_scope.

(** A uniform tariff is accepted exactly if base charge and the four rates are numbers and the peak window
    lies in the day; otherwise ValueError. Discount values are not checked. *)
Theorem C85_uniform_accepted : forall base s e pd pe od oe disc ds de dd den,
  let r := uniform base s e pd pe od oe disc ds de dd den in
  ((exists u, from_raw r = Ok u) <->
   base <> None /\ pd <> None /\ pe <> None /\ od <> None /\ oe <> None /\
   exists x y, s = Some x /\ e = Some y /\ 0 <= x /\ x <= 23 /\ x <= y /\ y <= 24) /\
  ((exists u, from_raw r = Ok u) \/ from_raw r = Err ValueError).
Proof.
  intros base s e pd pe od oe disc ds de dd den r.
  assert (D : discounts_long (normalise r)) by (unfold discounts_long; cbn; lia).
  assert (V : valid_tariff (normalise r) <-> base <> None /\ pd <> None /\ pe <> None /\ od <> None /\ oe <> None /\
     exists x y, s = Some x /\ e = Some y /\ 0 <= x /\ x <= 23 /\ x <= y /\ y <= 24).
  { unfold valid_tariff, normalise, r, uniform; cbn. split.
    - intros (B & _ & _ & _ & _ & _ & _ & _ & A). destruct (A 0%nat) as ((x & y & A1 & A2 & A3) & A4 & A5 & A6 & A7 & _); [lia|]. cbn in *.
      repeat (split; [assumption|]). exists x, y. auto.
    - intros (B & H1 & H2 & H3 & H4 & x & y & -> & -> & H5). repeat (split; [first [assumption|reflexivity]|]).
      intros i Hi. assert (i = 0%nat) by lia. subst i. unfold season_ok. cbn. split; [exists x, y; auto|]. repeat (split; [assumption|]).
      exists 0%Z, 12%Z. repeat split; try lia. }
  destruct (C09_rejected (normalise r)) as [R _].
  pose proof (C09_accepted_iff (normalise r)) as A. unfold from_raw. split.
  - rewrite A, V. intuition.
  - destruct (from_params (normalise r)) as [u|x] eqn:E; [left; eauto|right].
    destruct (validate_params (normalise r)) as [[]|] eqn:VP.
    + exfalso. destruct (proj2 A) as (u & Z); [split; [apply validate_params_iff; exact VP|exact D]|discriminate].
    + apply R. intro W. apply validate_params_iff in W. congruence.
Qed.
Print Assumptions C85_uniform_accepted.

(** Every hour of the year is charged by its hour of day alone. *)
Theorem C85_uniform_billing : forall base x y pd pe od oe disc ds de dd den u h,
  from_raw (uniform base (Some x) (Some y) pd pe od oe disc ds de dd den) = Ok u -> (0 <= h < 8760)%Z ->
  (x <= qz (h mod 24) < y -> charged u h pe pd) /\
  (~ (x <= qz (h mod 24) < y) -> disc = true -> in_window (h mod 24) ds de -> charged u h den dd) /\
  (~ (x <= qz (h mod 24) < y) -> (disc = true -> ~ in_window (h mod 24) ds de) -> charged u h oe od).
Proof.
  intros base x y pd pe od oe disc ds de dd den u h H Hh. set (r := uniform _ _ _ _ _ _ _ _ _ _ _ _) in *.
  destruct (hour_month_ex h Hh) as (m & Hm).
  assert (XY : x <= y).
  { destruct (proj1 (C09_accepted_iff (normalise r)) (ex_intro _ u H)) as [(_ & _ & _ & _ & _ & _ & _ & _ & A) _].
    destruct (A 0%nat) as ((x' & y' & A1 & A2 & _ & _ & A3 & _) & _); [cbn; lia|]. cbn in A1, A2. congruence. }
  assert (C : covers (normalise r) 0 m).
  { split; [cbn; lia|]. exists 0%Z, 12%Z. split; [reflexivity|]. split; [reflexivity|]. pose proof (hour_month_bounds h m Hm) as [B _]. lia. }
  assert (PK : peak_hour (normalise r) 0 (h mod 24) <-> x <= qz (h mod 24) < y).
  { unfold peak_hour, in_window. cbn. split.
    - intros (x' & y' & E1 & E2 & [(A & B1 & B2)|(A & B)]); injection E1 as <-; injection E2 as <-; [auto|lra].
    - intros [A B]. exists x, y. split; [reflexivity|]. split; [reflexivity|]. left. auto. }
  assert (G : forall w, billed_in (normalise r) 0 (h mod 24) w -> charged u h (energy_rate (normalise r) 0 w) (demand_rate (normalise r) 0 w)).
  { intros w W t iv St. destruct (C10_hour_billed _ _ _ _ _ _ _ _ H St Hm C W) as (A & k & B1 & B2 & _). split; [exact A|]. exists k. auto. }
  split; [|split].
  - intro A. apply (G Peak). apply PK. exact A.
  - intros N D W. apply (G Discount). split; [rewrite PK; exact N|]. split; [exact D|exact W].
  - intros N W. apply (G OffPeak). split; [rewrite PK; exact N|]. intros [D1 D2]. exact (W D1 D2).
Qed.
Print Assumptions C85_uniform_billing.

(** A discount given by single values holds in every season of a seasonal tariff. *)
Theorem C85_discount_all_year : forall r ds de dd den u h m i,
  from_raw r = Ok u -> one_discount r ds de dd den -> rw_include_discount r = true ->
  hour_month h m -> covers (normalise r) i m -> ~ peak_hour (normalise r) i (h mod 24) -> in_window (h mod 24) ds de ->
  charged u h den dd.
Proof.
  intros r ds de dd den u h m i H (D1 & D2 & D3 & D4) I Hm C NP W t iv St.
  assert (L : (i < length (to_list (rw_pk_start r)))%nat) by (destruct C as [C _]; exact C).
  assert (NR : forall A (x d : A) n, (i < n)%nat -> nth i (repeat x n) d = x).
  { intros A x d n. clear. revert i. induction n as [|n IH]; intros [|i] Hn; try lia; [reflexivity|]. cbn. apply IH. lia. }
  assert (B : billed_in (normalise r) i (h mod 24) Discount).
  { split; [exact NP|]. split; [exact I|]. unfold normalise. cbn [pr_dc_start pr_dc_end]. rewrite D1, D2. cbn [to_list_n]. rewrite !NR by exact L. exact W. }
  destruct (C10_hour_billed _ _ _ _ _ _ _ _ H St Hm C B) as (A & k & B1 & B2 & _).
  unfold energy_rate, demand_rate, normalise in A, B2. cbn [pr_dc_energy pr_dc_demand] in A, B2. rewrite D4 in A. rewrite D3 in B2. cbn [to_list_n] in A, B2.
  rewrite NR in A by exact L. split; [exact A|]. exists k. split; [exact B1|]. intro kw. rewrite B2. rewrite NR by exact L. reflexivity.
Qed.
Print Assumptions C85_discount_all_year.

(** With several seasons (or none) of peak starts, a single value for any rate, window end or month is refused:
    only discounts are repeated. *)
Theorem C85_single_among_seasons : forall r l,
  rw_pk_start r = Many l -> length l <> 1%nat -> some_single r -> from_raw r = Err ValueError.
Proof.
  intros r l E N S1. unfold from_raw. apply C09_rejected. intros (_ & A1 & A2 & A3 & A4 & A5 & A6 & A7 & _).
  unfold normalise in *. cbn in *. rewrite E in *. cbn [to_list] in *.
  destruct S1 as [(x & X)|[(x & X)|[(x & X)|[(x & X)|[(x & X)|[(x & X)|(x & X)]]]]]]; rewrite X in *; cbn in *; congruence.
Qed.
Print Assumptions C85_single_among_seasons.

(** Peak from 16 to 21, discount overnight from 22 to 6 in both halves of the year. *)
Example C85_case : exists u, from_raw (mkRaw (Some 30) (Many [Some 16; Some 17]) (Many [Some 21; Some 20]) (Many [Some 12; Some 9])
    (Many [Some (3 # 10); Some (1 # 4)]) (Many [Some 5; Some 4]) (Many [Some (1 # 10); Some (9 # 100)])
    (Many [Some 0%Z; Some 6%Z]) (Many [Some 6%Z; Some 12%Z]) true (One (Some 22)) (One (Some 6)) (One (Some 1)) (One (Some (1 # 20)))) = Ok u /\
  charged u 23 (Some (1 # 20)) (Some 1) /\ charged u 8759 (Some (1 # 20)) (Some 1).
Proof.
  set (r := mkRaw _ _ _ _ _ _ _ _ _ _ _ _ _ _).
  destruct (proj2 (C09_accepted_iff (normalise r))) as (u & H).
  { split; [apply validate_params_iff; vm_compute; reflexivity|]. unfold discounts_long. cbn. lia. }
  assert (NW : forall i, ~ peak_hour (normalise r) i 23).
  { intros i (x & y & E1 & E2 & B). cbn in E1, E2. unfold qz in B. change (inject_Z 23) with 23 in B.
    destruct i as [|[|i]]; cbn in E1, E2; [| |destruct i; discriminate]; injection E1 as <-; injection E2 as <-; destruct B as [(B1 & B2 & B3)|(B1 & B2)]; lra. }
  assert (W : in_window 23 (Some 22) (Some 6)) by (exists 22, 6; split; [reflexivity|]; split; [reflexivity|]; right; split; [reflexivity|left; discriminate]).
  exists u. split; [exact H|]. split.
  - apply (C85_discount_all_year r (Some 22) (Some 6) (Some 1) (Some (1 # 20)) u 23 0 0 H); [repeat split|reflexivity| | |apply NW|exact W].
    + split; [lia|]. cbn. lia.
    + split; [cbn; lia|]. exists 0%Z, 6%Z. repeat split; cbn; lia.
  - apply (C85_discount_all_year r (Some 22) (Some 6) (Some 1) (Some (1 # 20)) u 8759 11 1 H); [repeat split|reflexivity| | |apply NW|exact W].
    + split; [lia|]. cbn. lia.
    + split; [cbn; lia|]. exists 6%Z, 12%Z. repeat split; cbn; lia.
Qed.
