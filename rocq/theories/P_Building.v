(** Properties C01-C08, C56, C57: hot-water loads, load shapes and weather. *)
From Verif Require Import Prelude M_Building S_Building L_Building D_Building.

(** Concrete cases used beside the theorems. *)
Definition ex_shape : list Q := repeat (1 # 48) 12 ++ repeat (1 # 16) 12.
Definition ex_climate := mkClimate (Some (map (fun i => qz (Z.of_nat i) / 100) (seq 0 48)))
                                   (Some [50;51;53;55;58;61;63;62;60;57;54;51]) None None.
Definition ex_building := mkBuilding (Some ex_climate) 1000 ex_shape (repeat (1 # 24) 24) "multi_family".
Definition ex_file := mkShapeFile ex_shape (Some (repeat (1 # 24) 24)) (Some (repeat (1 # 8760) (Z.to_nat 8760))).
Definition ex_lib := mkLibrary (fun s => if String.eqb s "multi_family" then Some ex_file
                                        else if String.eqb s "motel" then Some (mkShapeFile (repeat (1 # 24) 24) None None)
                                        else None)
                               (fun _ => Ok 25) (fun _ => 30).

(** *** C01 *)

(** With a timestep that divides an hour into [k] steps, the loads of any [24 * k] consecutive
    steps (any whole day, wherever it starts) add up to the daily volume times the shape total. *)
Theorem C01_day_conserved : forall b u iv k s,
  (0 < k)%Z -> (iv * k = 60)%Z -> length (shape_of b u) = 24%nat ->
  exists loads,
    Forall2 (fun t x => bd_load b t iv u = Ok x) (steps s (24 * Z.to_nat k)) loads /\
    qsum loads == bd_daily b * qsum (shape_of b u).
Proof.
  intros b u iv k s Hk E L.
  assert (N : shape_of b u <> []) by (intro C; rewrite C in L; discriminate).
  exists (map (load_at b u iv) (steps s (24 * Z.to_nat k))). split.
  - induction (steps s (24 * Z.to_nat k)) as [|t l IH]; cbn [map]; constructor;
      [apply bd_load_ok; exact N|exact IH].
  - rewrite <- L. exact (c01_cycle b u iv k s Hk E N).
Qed.
Print Assumptions C01_day_conserved.

(** The same for a cycle of any length, in particular a year of an 8760-hour shape. *)
Theorem C01_cycle_conserved : forall b u iv k s,
  (0 < k)%Z -> (iv * k = 60)%Z -> shape_of b u <> [] ->
  exists loads,
    Forall2 (fun t x => bd_load b t iv u = Ok x) (steps s (length (shape_of b u) * Z.to_nat k)) loads /\
    qsum loads == bd_daily b * qsum (shape_of b u).
Proof.
  intros b u iv k s Hk E N.
  exists (map (load_at b u iv) (steps s (length (shape_of b u) * Z.to_nat k))). split.
  - induction (steps s (length (shape_of b u) * Z.to_nat k)) as [|t l IH]; cbn [map]; constructor;
      [apply bd_load_ok; exact N|exact IH].
  - exact (c01_cycle b u iv k s Hk E N).
Qed.
Print Assumptions C01_cycle_conserved.

Example C01_case :
  length (shape_of ex_building false) = 24%nat /\ (15 * 4 = 60)%Z /\
  qsum (shape_of ex_building false) == 1.
Proof. vm_compute. auto. Qed.

(** For a timestep that does not divide an hour the day is not conserved: with 90-minute steps
    the 16 loads of a day of this normalised shape do not add up to the daily volume. *)
Theorem C01_non_divisor_refuted :
  exists b iv n, (iv * n = 24 * 60)%Z /\ qsum (shape_of b false) == 1 /\
  exists loads, Forall2 (fun t x => bd_load b t iv false = Ok x) (steps 0 (Z.to_nat n)) loads /\
    ~ qsum loads == bd_daily b.
Proof.
  exists (mkBuilding None 100 ((0 # 1) :: (0 # 1) :: (1 # 1) :: repeat 0 21) (repeat (1 # 24) 24) "custom"), 90%Z, 16%Z.
  split; [reflexivity|]. split; [reflexivity|].
  eexists. split.
  - repeat (apply Forall2_cons; [vm_compute; reflexivity|]). apply Forall2_nil.
  - vm_compute. discriminate.
Qed.
Print Assumptions C01_non_divisor_refuted.

(** *** C02 *)

(** The load of a step is the daily volume times the fraction of the hour the step starts in,
    times the step length in hours - whatever the step index, the timestep and the shape length. *)
Theorem C02_load_of_its_hour : forall b u t iv h,
  shape_of b u <> [] -> in_hour (Z.of_nat (length (shape_of b u))) iv t h ->
  exists f, nth_error (shape_of b u) (Z.to_nat h) = Some f /\
            exists x, bd_load b t iv u = Ok x /\ x == bd_daily b * f * (qz iv / 60).
Proof.
  intros b u t iv h N H.
  assert (L : (0 < Z.of_nat (length (shape_of b u)))%Z) by (destruct (shape_of b u); [congruence|cbn [length]; lia]).
  pose proof (hour_unique _ _ _ _ L H) as E. destruct H as [Hh _].
  destruct (nth_error (shape_of b u) (Z.to_nat h)) as [f|] eqn:F; [|apply nth_error_None in F; lia].
  exists f. split; [reflexivity|]. exists (load_at b u iv t). split; [apply bd_load_ok; exact N|].
  unfold load_at. cbv zeta. rewrite E. rewrite (nth_error_nth _ _ 0 F). field.
Qed.
Print Assumptions C02_load_of_its_hour.

(** Every step index lies in exactly one hour, so no step is rejected. *)
Theorem C02_every_step_has_a_load : forall b u t iv,
  shape_of b u <> [] -> exists x, bd_load b t iv u = Ok x.
Proof. intros b u t iv N. eexists. apply bd_load_ok. exact N. Qed.
Print Assumptions C02_every_step_has_a_load.
Theorem C02_every_step_has_an_hour : forall n iv t,
  (0 < n)%Z -> exists h, in_hour n iv t h /\ forall h', in_hour n iv t h' -> h' = h.
Proof.
  intros n iv t Hn. exists ((t * iv / 60) mod n)%Z. split; [apply hour_exists; exact Hn|].
  intros h' H. symmetry. apply hour_unique; assumption.
Qed.
Print Assumptions C02_every_step_has_an_hour.

(** Loads repeat after a whole cycle of steps (a day, or a year for an annual shape). *)
Theorem C02_periodic : forall b u t iv k,
  (0 < k)%Z -> (iv * k = 60)%Z ->
  bd_load b (t + Z.of_nat (length (shape_of b u)) * k) iv u = bd_load b t iv u.
Proof.
  intros b u t iv k Hk E. destruct (shape_of b u) as [|a l] eqn:S0.
  - unfold bd_load. fold (shape_of b u). rewrite S0. reflexivity.
  - rewrite <- S0. rewrite !bd_load_ok by (rewrite S0; discriminate).
    rewrite load_periodic; auto. rewrite S0; discriminate.
Qed.
Print Assumptions C02_periodic.

(** Loads are never negative for a non-negative volume and shape. *)
Theorem C02_nonneg : forall b u t iv x,
  0 <= bd_daily b -> (forall y, In y (shape_of b u) -> 0 <= y) -> (0 <= iv)%Z ->
  bd_load b t iv u = Ok x -> 0 <= x.
Proof. exact daily_nonneg. Qed.
Print Assumptions C02_nonneg.

Example C02_case :
  in_hour 24 15 (4 * 24 * 3 + 53) 13 /\
  bd_load ex_building (4 * 24 * 3 + 53) 15 false = Ok (1000 * (1 # 16) * 15 / 60).
Proof. split; [split; [lia|exists 3%Z; lia]|reflexivity]. Qed.

(** *** C03 *)

(** Validation accepts exactly the valid shapes and raises ValueError for all others. *)
Theorem C03_validation_exact : forall l,
  (valid_shape l -> validate_load_shape l = Ok tt) /\
  (~ valid_shape l -> validate_load_shape l = Err ValueError).
Proof. intro l. split; [apply validate_iff|apply validate_err]. Qed.
Print Assumptions C03_validation_exact.

(** A building of a named type constructed with custom shapes stores exactly those shapes, and
    they are valid; an invalid custom shape makes construction raise. *)
Theorem C03_named_type : forall lib t m cp ca gp std br g p a,
  compute_single lib (Some t) m cp ca gp std br = Ok (g, p, a) ->
  (forall raw, cp = Some raw -> p = raw /\ valid_shape raw) /\
  (forall raw, ca = Some raw -> a = raw /\ valid_shape raw).
Proof. exact c03_named. Qed.
Print Assumptions C03_named_type.
Theorem C03_named_type_rejects : forall lib t m cp ca gp std br raw,
  (cp = Some raw \/ ca = Some raw) -> ~ valid_shape raw ->
  exists e, compute_single lib (Some t) m cp ca gp std br = Err e.
Proof. exact c03_named_rejects. Qed.
Print Assumptions C03_named_type_rejects.

(** A building given only by its shape: the daily volume is the magnitude, or the shape's total
    when none is given; what is stored sums to 1 within 0.001; a custom average shape is valid. *)
Theorem C03_shape_only : forall lib m raw ca gp std br g p a,
  raw <> [] -> compute_single lib None m (Some raw) ca gp std br = Ok (g, p, a) ->
  (m = None -> g = qsum raw) /\ (forall x, m = Some x -> g = x) /\
  Qabs (qsum p - 1) <= 1 # 1000 /\ length p = length raw /\
  (forall ra, ca = Some ra -> valid_shape a).
Proof. exact c03_custom. Qed.
Print Assumptions C03_shape_only.

(** But a shape-only building is NOT validated when the shape is rescaled: a shape of the wrong
    length and with a negative entry is accepted and stored. *)
Theorem C03_shape_only_unvalidated_refuted : exists lib raw g p a,
  compute_single lib None (Some 500) (Some raw) None (Some 25) None None = Ok (g, p, a) /\
  ~ valid_shape p /\ length p <> 24%nat /\ (exists x, In x p /\ x < 0).
Proof.
  exists ex_lib, [3; -1; 8], 500, [3 / 10; -1 / 10; 8 / 10], [3 / 10; -1 / 10; 8 / 10].
  split; [reflexivity|]. split; [|split].
  - intros [C _]. discriminate.
  - discriminate.
  - exists (-1 / 10). split; [right; left; reflexivity|reflexivity].
Qed.
Print Assumptions C03_shape_only_unvalidated_refuted.

(** Every load shape shipped with the library is valid. *)
Theorem C03_shipped_valid : forall ty peak avg,
  In (ty, (peak, avg)) shipped_shapes -> valid_shape peak /\ valid_shape avg.
Proof.
  intros ty peak avg H.
  assert (A : forallb (fun r => valid_shapeb (fst (snd r)) && valid_shapeb (snd (snd r)))%bool shipped_shapes = true)
    by (vm_compute; reflexivity).
  rewrite forallb_forall in A. specialize (A _ H). cbn [fst snd] in A.
  apply andb_true_iff in A. destruct A as [A B]. split; apply valid_shapeb_ok; assumption.
Qed.
Print Assumptions C03_shipped_valid.

Example C03_case :
  valid_shape ex_shape /\ ~ valid_shape (repeat (1 # 25) 24) /\
  compute_single ex_lib (Some "motel"%string) (Some 10) (Some ex_shape) None (Some 25) None None
    = Ok ((214 # 10) * 10, ex_shape, repeat (1 # 24) 24).
Proof.
  split; [apply valid_shapeb_ok; reflexivity|]. split; [|reflexivity].
  intros (_ & C & _). vm_compute in C. apply C. reflexivity.
Qed.

(** *** C04 *)

(** A mixed-use building is the sum of the buildings its entries would be on their own: same
    arguments, one entry each.  Volumes add; at every step the peak and the average loads add;
    the blended shape sums to 1 if the parts' shapes do. *)
Theorem C04_sum_of_parts : forall lib tys ms cz cps cas gp std br doat din annual b,
  (length tys <> 1)%nat -> (length ms <> 1)%nat ->
  from_building_type lib (Many tys) (Many ms) cz gp std br cps cas annual doat din = Ok b ->
  exists subs,
    length subs = length tys /\
    (forall i ty m cp ca, nth_error tys i = Some ty -> nth_error ms i = Some m ->
       custom_at cps i = Some cp -> custom_at cas i = Some ca ->
       exists s, nth_error subs i = Some s /\
         from_building_type lib (One ty) (One m) cz gp std br (as_single cp) (as_single ca) false doat din
           = Ok s) /\
    bd_daily b == qsum (map bd_daily subs) /\
    (forall t iv u x, bd_load b t iv u = Ok x ->
       exists xs, Forall2 (fun s y => bd_load s t iv u = Ok y) subs xs /\ x == qsum xs) /\
    (forall u, shape_of b u <> [] -> (forall s, In s subs -> qsum (shape_of s u) == 1) ->
       qsum (shape_of b u) == 1).
Proof.
  intros lib tys ms cz cps cas gp std br doat din annual b L1 L2 H.
  apply (c04_core lib tys ms cz cps cas gp std br doat din b).
  unfold from_building_type in H. cbv zeta in H.
  destruct tys as [|t [|t2 tys]]; [|cbn in L1; congruence|];
    destruct ms as [|m [|m2 ms]]; try (cbn in L2; congruence); exact H.
Qed.
Print Assumptions C04_sum_of_parts.

Example C04_case : exists b,
  from_building_type ex_lib (Many [Some "multi_family"; Some "motel"]%string) (Many [Some 100; Some 20])
    (Some ex_climate) (Some 25) None None None None false None None = Ok b /\
  bd_daily b == 2928 /\ shape_of b false <> [] /\ qsum (shape_of b false) == 1.
Proof.
  eexists. split; [reflexivity|]. split; [vm_compute; reflexivity|]. split; [discriminate|].
  vm_compute. reflexivity.
Qed.

(** The [annual] option is documented to select the 8760-hour shape; a mixed-use building
    ignores it silently. *)
Theorem C04_annual_ignored : forall lib tys ms cz gp std br cps cas annual doat din,
  (length tys <> 1)%nat ->
  from_building_type lib (Many tys) ms cz gp std br cps cas annual doat din =
  from_building_type lib (Many tys) ms cz gp std br cps cas false doat din.
Proof.
  intros lib tys ms cz gp std br cps cas annual doat din L. unfold from_building_type. cbv zeta.
  destruct tys as [|t [|t2 tys]]; [reflexivity|cbn in L; congruence|reflexivity].
Qed.
Print Assumptions C04_annual_ignored.

(** *** C05 *)

(** Whatever the history of switches, volume, type and climate are untouched, and the shapes are
    the library's shapes of the kind switched to last. *)
Theorem C05_history : forall lib l s b b',
  run_switches lib b (l ++ [s]) = Ok b' ->
  bd_type b' = bd_type b /\ bd_daily b' = bd_daily b /\ bd_climate b' = bd_climate b /\
  exists f, lib_file lib "multi_family"%string = Some f /\
  match s with
  | ToAnnual => sf_annual f = Some (bd_peak b') /\ sf_annual f = Some (bd_avg b')
  | ToDaily => sf_stream f = bd_peak b' /\ sf_stream_avg f = Some (bd_avg b')
  end.
Proof. exact run_switches_last. Qed.
Print Assumptions C05_history.

(** Round trips restore a building whose shapes came from the library. *)
Theorem C05_annual_daily_round_trip : forall lib b b1 b2 f,
  lib_file lib "multi_family"%string = Some f ->
  bd_peak b = sf_stream f -> sf_stream_avg f = Some (bd_avg b) ->
  bd_set_annual lib b = Ok b1 -> bd_set_daily lib b1 = Ok b2 -> b2 = b.
Proof. exact switch_restores. Qed.
Print Assumptions C05_annual_daily_round_trip.
Theorem C05_daily_annual_round_trip : forall lib b b1 b2 f,
  lib_file lib "multi_family"%string = Some f ->
  sf_annual f = Some (bd_peak b) -> bd_avg b = bd_peak b ->
  bd_set_daily lib b = Ok b1 -> bd_set_annual lib b1 = Ok b2 -> b2 = b.
Proof. exact switch_restores'. Qed.
Print Assumptions C05_daily_annual_round_trip.

(** Other building types are rejected (and, the functions being pure here, unchanged). *)
Theorem C05_other_types_rejected : forall lib b, bd_type b <> "multi_family"%string ->
  bd_set_annual lib b = Err ValueError /\ bd_set_daily lib b = Err ValueError.
Proof. exact set_rejects. Qed.
Print Assumptions C05_other_types_rejected.

(** is_annual_load_shape reports the state reached, for a library whose annual shape has 8760
    hours and whose daily shape has not. *)
Theorem C05_is_annual_reports : forall lib f l s b b' an,
  lib_file lib "multi_family"%string = Some f -> sf_annual f = Some an ->
  Z.of_nat (length an) = 8760%Z -> length (sf_stream f) = 24%nat ->
  run_switches lib b (l ++ [s]) = Ok b' ->
  (bd_is_annual b' = true <-> s = ToAnnual).
Proof.
  intros lib f l s b b' an F A L1 L2 H.
  destruct (run_switches_last _ _ _ _ _ H) as (_ & _ & _ & f' & F' & M).
  rewrite F in F'. injection F' as <-. unfold bd_is_annual.
  destruct s; destruct M as [M1 M2].
  - rewrite A in M1. injection M1 as <-. rewrite L1. split; reflexivity.
  - rewrite <- M1, L2. split; discriminate.
Qed.
Print Assumptions C05_is_annual_reports.

Example C05_case : exists b1,
  run_switches ex_lib ex_building [ToAnnual; ToDaily; ToAnnual] = Ok b1 /\ bd_is_annual b1 = true /\
  run_switches ex_lib ex_building [ToAnnual; ToDaily] = Ok ex_building.
Proof.
  eexists. split; [reflexivity|]. split; [|reflexivity].
  unfold bd_is_annual. cbn [bd_peak]. rewrite repeat_length, Z2Nat.id by lia. reflexivity.
Qed.

(** A custom shape does not survive: the round trip returns the library shape instead. *)
Theorem C05_custom_lost_refuted : exists lib b b1 b2,
  bd_set_annual lib b = Ok b1 /\ bd_set_daily lib b1 = Ok b2 /\ bd_peak b2 <> bd_peak b.
Proof.
  exists ex_lib, (mkBuilding None 1000 (repeat (1 # 24) 24) (repeat (1 # 24) 24) "multi_family"). eexists. eexists.
  split; [reflexivity|]. split; [reflexivity|]. discriminate.
Qed.
Print Assumptions C05_custom_lost_refuted.

(** *** C06 *)

(** Outdoor temperature: the value of the hour of year containing the step. *)
Theorem C06_oat_of_its_hour : forall c l t iv h,
  cz_const_oat c = None -> cz_oat c = Some l -> l <> [] ->
  in_hour (Z.of_nat (length l)) iv t h ->
  exists x, nth_error l (Z.to_nat h) = Some x /\ cz_get_oat c t iv = Ok x.
Proof. exact c06_oat. Qed.
Print Assumptions C06_oat_of_its_hour.

(** Inlet water: the value of the calendar month containing the day of the step. *)
Theorem C06_inlet_of_its_month : forall c l t iv d m,
  cz_const_inlet c = None -> cz_inlet c = Some l -> length l = 12%nat ->
  on_day iv t d -> in_month d m ->
  exists x, nth_error l m = Some x /\ cz_get_inlet c t iv = Ok x.
Proof. exact c06_inlet. Qed.
Print Assumptions C06_inlet_of_its_month.

(** Every step lies on exactly one day, and every day in exactly one month: lookups never fail. *)
Theorem C06_every_step_dated : forall iv t,
  exists d m, on_day iv t d /\ in_month d m /\
    (forall d', on_day iv t d' -> d' = d) /\ (forall m', in_month d m' -> m' = m).
Proof.
  intros iv t. exists ((t * iv / (60 * 24)) mod 365)%Z. eexists.
  pose proof (day_exists iv t) as D.
  split; [exact D|]. split; [apply in_month_month; apply D|]. split.
  - intros d' H. symmetry. apply day_unique. exact H.
  - intros m' H. apply (in_month_unique _ _ _ H). apply in_month_month. apply D.
Qed.
Print Assumptions C06_every_step_dated.

(** Both repeat after any whole number [k] of years of 525600 minutes. *)
Theorem C06_yearly : forall c t t' iv k,
  (match cz_oat c with Some l => Z.of_nat (length l) = 8760%Z | None => True end) ->
  (t' * iv = t * iv + k * 525600)%Z ->
  cz_get_oat c t' iv = cz_get_oat c t iv /\ cz_get_inlet c t' iv = cz_get_inlet c t iv.
Proof. exact c06_periodic. Qed.
Print Assumptions C06_yearly.

(** With constant design conditions every step reports the constants. *)
Theorem C06_constant : forall o i t iv,
  cz_get_oat (cz_from_design (Some o) (Some i)) t iv = Ok o /\
  cz_get_inlet (cz_from_design (Some o) (Some i)) t iv = Ok i.
Proof. intros. split; reflexivity. Qed.
Print Assumptions C06_constant.

Example C06_case :
  on_day 60 (8760 + 24 * 59) 59 /\ in_month 59 2 /\
  cz_get_inlet ex_climate (8760 + 24 * 59) 60 = Ok 53 /\
  cz_get_inlet ex_climate (8760 + 24 * 59 - 1) 60 = Ok 51 /\
  cz_get_oat ex_climate (48 + 5) 60 = Ok (5 / 100).
Proof.
  split; [split; [lia|exists 1%Z; lia]|]. split; [split; [lia|cbn; lia]|].
  split; [vm_compute; reflexivity|]. split; vm_compute; reflexivity.
Qed.

(** *** C07 *)

(** No reported temperature is below the design temperature, *)
Theorem C07_design_oat_lower_bound : forall c t iv x d,
  cz_get_oat c t iv = Ok x -> cz_design_oat c = Ok d -> d <= x.
Proof. exact c07_oat. Qed.
Print Assumptions C07_design_oat_lower_bound.
Theorem C07_design_inlet_lower_bound : forall c t iv x d,
  cz_get_inlet c t iv = Ok x -> cz_design_inlet c = Ok d -> d <= x.
Proof. exact c07_inlet. Qed.
Print Assumptions C07_design_inlet_lower_bound.

(** and the design temperature is reported at some step of the year. *)
Theorem C07_design_oat_attained : forall c l d,
  cz_const_oat c = None -> cz_oat c = Some l -> cz_design_oat c = Ok d ->
  exists t, (0 <= t)%Z /\ cz_get_oat c t 60 = Ok d.
Proof. exact c07_oat_attained. Qed.
Print Assumptions C07_design_oat_attained.
Theorem C07_design_inlet_attained : forall c l d,
  cz_const_inlet c = None -> cz_inlet c = Some l -> length l = 12%nat -> cz_design_inlet c = Ok d ->
  exists t, (0 <= t)%Z /\ cz_get_inlet c t 1440 = Ok d.
Proof. exact c07_inlet_attained. Qed.
Print Assumptions C07_design_inlet_attained.

(** A building's design temperatures are its climate's: no step of a simulation reports less, and each is
    reported at some step when it comes from the data. Without a climate there are none. *)
Theorem C07_building : forall b,
  (bd_climate b = None -> bd_design_oat b = Ok None /\ bd_design_inlet b = Ok None) /\
  (forall d, bd_design_oat b = Ok (Some d) ->
     (forall t iv x, bd_oat b t iv = Ok x -> d <= x) /\
     (forall c l, bd_climate b = Some c -> cz_const_oat c = None -> cz_oat c = Some l ->
        exists t, (0 <= t)%Z /\ bd_oat b t 60 = Ok d)) /\
  (forall d, bd_design_inlet b = Ok (Some d) ->
     (forall t iv x, bd_inlet b t iv = Ok x -> d <= x) /\
     (forall c l, bd_climate b = Some c -> cz_const_inlet c = None -> cz_inlet c = Some l -> length l = 12%nat ->
        exists t, (0 <= t)%Z /\ bd_inlet b t 1440 = Ok d)).
Proof.
  intro b. unfold bd_design_oat, bd_design_inlet, bd_oat, bd_inlet. destruct (bd_climate b) as [c|].
  - split; [discriminate|]. split; intros d H; destruct (bind_ok _ _ _ H) as (x & E & H1); injection H1 as ->.
    + split; [intros t iv y G; exact (c07_oat c t iv y d G E)|]. intros c' l C K L. injection C as <-. exact (c07_oat_attained c l d K L E).
    + split; [intros t iv y G; exact (c07_inlet c t iv y d G E)|]. intros c' l C K L N. injection C as <-. exact (c07_inlet_attained c l d K L N E).
  - split; [auto|]. split; discriminate.
Qed.
Print Assumptions C07_building.

Example C07_case :
  cz_design_inlet ex_climate = Ok 50 /\ cz_get_inlet ex_climate 70085 15 = Ok 50 /\
  cz_get_inlet ex_climate 20000 15 = Ok 63.
Proof. vm_compute. auto. Qed.

(** *** C08 *)

(** Buckets partition the 365 days: the counts are positive and add up to 365; bucket starts are
    distinct multiples of 5; each count is the number of days whose mean lies in the bucket; and
    every day has its bucket. *)
Theorem C08_partition : forall c l bs,
  cz_oat c = Some l -> cz_oat_buckets c = Ok bs ->
  total bs = 365%Z /\
  qnodup (map fst bs) /\
  (forall k n, In (k, n) bs ->
     (exists z, k = qz z * 5) /\ (0 < n)%Z /\
     n = Z.of_nat (length (filter (fun d => Qle_bool k (day_mean l d) && qltb (day_mean l d) (k + 5)) (seq 0 365)))) /\
  (forall d, (d < 365)%nat -> exists k n, In (k, n) bs /\ in_bucket k (day_mean l d)).
Proof. exact c08. Qed.
Print Assumptions C08_partition.

(** A climate with data always has buckets; one without (design conditions) raises ValueError. *)
Theorem C08_available : forall c,
  (exists bs, cz_oat_buckets c = Ok bs) <-> cz_oat c <> None.
Proof.
  intro c. unfold cz_oat_buckets. destruct (cz_oat c) as [l|].
  - split; [discriminate|]. intros _. eexists. reflexivity.
  - split; [intros [bs H]; discriminate|congruence].
Qed.
Print Assumptions C08_available.

Example C08_case : exists n, cz_oat_buckets (mkClimate (Some (repeat (-3 # 1) (24 * 2) ++ repeat (20 # 1) (24 * 3))) None None None)
  = Ok [(-5 # 1, 2%Z); (n, 3%Z); (0, 360%Z)] /\ n == 20.
Proof. eexists. split; vm_compute; reflexivity. Qed.

(** *** C56 *)

(** A zone number between 1 and the number of columns loads that column; a number above it (or
    far below zero) raises IndexError. *)
Theorem C56_zone_column : forall rows z ncols,
  (forall row, In row rows -> length row = ncols) -> (1 <= z <= Z.of_nat ncols)%Z ->
  cz_load_column rows z = Ok (map (fun row => nth (Z.to_nat (z - 1)) row 0) rows).
Proof. exact c56_column. Qed.
Print Assumptions C56_zone_column.
Theorem C56_zone_out_of_range : forall rows z ncols r rest,
  rows = r :: rest -> length r = ncols -> (z > Z.of_nat ncols \/ z < 1 - Z.of_nat ncols)%Z ->
  cz_load_column rows z = Err IndexError.
Proof. exact c56_out_of_range. Qed.
Print Assumptions C56_zone_out_of_range.

(** A key lookup returns the zone of the first row with that key, or ValueError if none. *)
Theorem C56_lookup : forall table key,
  match cz_lookup table key with
  | Ok z => exists pre post, table = pre ++ (key, z) :: post /\ forall k v, In (k, v) pre -> k <> key
  | Err e => e = ValueError /\ forall k v, In (k, v) table -> k <> key
  end.
Proof. exact cz_lookup_spec. Qed.
Print Assumptions C56_lookup.

(** Zone 0 is not a zone, yet it is accepted and silently loads the last zone's weather. *)
Theorem C56_zone_zero_refuted : exists rows, cz_load_column rows 0 = cz_load_column rows 3 /\
  (exists l, cz_load_column rows 0 = Ok l) /\ forall r, In r rows -> length r = 3%nat.
Proof.
  exists [[1; 2; 3]; [4; 5; 6]]. split; [reflexivity|]. split; [eexists; reflexivity|].
  intros r [<-|[<-|[]]]; reflexivity.
Qed.
Print Assumptions C56_zone_zero_refuted.

Example C56_case : cz_load_column [[1; 2; 3]; [4; 5; 6]] 2 = Ok [2; 5] /\
  cz_load_column [[1; 2; 3]; [4; 5; 6]] 4 = Err IndexError /\
  cz_lookup [("a", 1%Z); ("b", 2%Z); ("b", 3%Z)]%string "b" = Ok 2%Z.
Proof. repeat split. Qed.

(** *** C57 *)

(** The listing is exactly the table minus the excluded zones (zone 96 by default). *)
Theorem C57_listing_exact : forall stations exclude st z,
  In (st, z) (engine_weather_stations stations exclude) <->
  In (st, z) stations /\ ~ In z (match exclude with Some l => l | None => [96%Z] end).
Proof. exact c57_listed. Qed.
Print Assumptions C57_listing_exact.

(** In a table without duplicate names every listed station resolves to its listed zone, *)
Theorem C57_listed_resolves : forall stations exclude st z,
  NoDup (map fst stations) -> In (st, z) (engine_weather_stations stations exclude) ->
  cz_lookup stations st = Ok z.
Proof.
  intros stations exclude st z ND H. apply c57_listed in H. destruct H as [H _].
  apply cz_lookup_unique; assumption.
Qed.
Print Assumptions C57_listed_resolves.

(** which is the case of the shipped table, whose zones all have a weather column (1-96). *)
Theorem C57_shipped_stations : forall exclude st z,
  In (st, z) (engine_weather_stations shipped_stations exclude) ->
  cz_lookup shipped_stations st = Ok z /\ (1 <= z <= 96)%Z.
Proof.
  intros exclude st z H. split.
  - apply (C57_listed_resolves _ exclude); [|exact H]. apply nodupb_ok. vm_compute. reflexivity.
  - apply c57_listed in H. destruct H as [H _].
    assert (A : forallb (fun r => (1 <=? snd r)%Z && (snd r <=? 96)%Z)%bool shipped_stations = true)
      by (vm_compute; reflexivity).
    rewrite forallb_forall in A. specialize (A _ H). cbn [snd] in A. lia.
Qed.
Print Assumptions C57_shipped_stations.

Example C57_case : In ("ID - Boise Air Terminal"%string, 67%Z) (engine_weather_stations shipped_stations None) /\
  cz_lookup shipped_stations "ID - Boise Air Terminal" = Ok 67%Z.
Proof. split; [vm_compute; auto|reflexivity]. Qed.
