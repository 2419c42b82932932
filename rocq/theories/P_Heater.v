(** Properties C30-C34: heater controls and performance maps. *)
From Verif Require Import Prelude M_Heater S_Heater L_Heater.

(** A heater used as the concrete case beside the theorems: normal operation at a 75%-height
    on-sensor and a 25%-height off-sensor, shed hours 17-19 with a lower on-sensor. *)
Definition ex_normal := mkControls (3#4) 125 (1#4) 145 150.
Definition ex_shed := mkControls (9#10) 120 (3#4) 125 150.
Definition ex_heater :=
  wh_new (Some (PmNominal 200))
    (Some (repeat "normal"%string 17 ++ repeat "shed"%string 3 ++ repeat "normal"%string 4))
    (Some [("normal"%string, ex_normal); ("shed"%string, ex_shed)]).
Definition ex_tank_cold : tank_view := fun f => Ok (60 + 50 * f).
Definition ex_tank_hot : tank_view := fun f => Ok (146 + 4 * f).

(** *** C30 *)

(** One update: an idle heater starts exactly when the on-sensor reads below the on-trigger of
    the controls in force; a running heater stops exactly when the off-sensor reads at or above
    the off-trigger; nothing else about the heater changes. *)
Theorem C30_one_update : forall h tk hour h',
  (0 <= hour)%Z -> wh_update h tk hour = Ok h' ->
  (wh_active h = false -> (wh_active h' = true <-> calls_on h (tk, hour))) /\
  (wh_active h = true -> (wh_active h' = false <-> calls_off h (tk, hour))) /\
  wh_pm h' = wh_pm h /\ wh_schedule h' = wh_schedule h /\ wh_map h' = wh_map h.
Proof.
  intros h tk hour h' H0 U. destruct (c30_step h tk hour h' H0 U) as [A B].
  split; [exact A|]. split; [exact B|]. exact (wh_update_same h tk hour h' U).
Qed.
Print Assumptions C30_one_update.

Example C30_one_update_case :
  wh_update ex_heater ex_tank_cold 3 = Ok (wh_set ex_heater true) /\
  wh_update (wh_set ex_heater true) ex_tank_hot 18 = Ok ex_heater /\
  wh_update ex_heater ex_tank_hot 18 = Ok ex_heater.
Proof. vm_compute. auto. Qed.

(** An update succeeds whenever controls are in force and their sensors read. *)
Theorem C30_update_succeeds : forall h tk hour c x y,
  in_effect h hour c -> tk (ct_on_sensor c) = Ok x -> tk (ct_off_sensor c) = Ok y ->
  exists h', wh_update h tk hour = Ok h'.
Proof. exact c30_step_succeeds. Qed.
Print Assumptions C30_update_succeeds.

Example C30_update_succeeds_case :
  in_effect ex_heater 18 ex_shed /\ ex_tank_cold (ct_on_sensor ex_shed) = Ok (60 + 50 * (9#10)) /\
  ex_tank_cold (ct_off_sensor ex_shed) = Ok (60 + 50 * (3#4)).
Proof.
  split; [|split; reflexivity]. split; [lia|].
  exists (repeat "normal"%string 17 ++ repeat "shed"%string 3 ++ repeat "normal"%string 4),
    [("normal"%string, ex_normal); ("shed"%string, ex_shed)], "shed"%string.
  repeat split.
Qed.

(** Without controls for the hour the update raises (and the heater keeps its state). *)
Theorem C30_no_controls_raises : forall h tk hour,
  (0 <= hour)%Z -> (forall c, ~ in_effect h hour c) ->
  exists e, wh_update h tk hour = Err e /\ (e = ValueError \/ e = IndexError).
Proof. exact c30_no_controls. Qed.
Print Assumptions C30_no_controls_raises.

Example C30_no_controls_case :
  wh_update (wh_new None (Some ["loadUp"%string]) (Some [("normal"%string, ex_normal)])) ex_tank_cold 0
    = Err ValueError /\
  wh_update (wh_new None None None) ex_tank_cold 0 = Err ValueError /\
  wh_update ex_heater ex_tank_cold 24 = Err IndexError.
Proof. vm_compute. auto. Qed.

(** Over every history in which no tank state asks for both at once, the heater is on exactly if
    some on-call was followed by no off-call (or it started on and no off-call ever came). *)
Theorem C30_latch : forall hist h h',
  (forall ev, In ev hist -> (0 <= snd ev)%Z) ->
  (forall ev, In ev hist -> ~ (calls_on h ev /\ calls_off h ev)) ->
  wh_run h hist = Ok h' ->
  (wh_active h' = true <->
   (exists pre ev post, hist = pre ++ ev :: post /\ calls_on h ev /\
                        forall e, In e post -> ~ calls_off h e)
   \/ (wh_active h = true /\ forall e, In e hist -> ~ calls_off h e)).
Proof. exact c30_latch. Qed.
Print Assumptions C30_latch.

(** The two calls never coincide for a tank that is hotter towards the top, if the off-sensor
    is at or below the on-sensor and the off-trigger at or above the on-trigger. *)
Theorem C30_triggers_exclusive : forall h ev,
  layered (fst ev) -> (forall c, in_effect h (snd ev) c -> ordered_controls c) ->
  ~ (calls_on h ev /\ calls_off h ev).
Proof. exact c30_exclusive. Qed.
Print Assumptions C30_triggers_exclusive.

Example C30_latch_case :
  layered ex_tank_cold /\ layered ex_tank_hot /\ ordered_controls ex_normal /\ ordered_controls ex_shed /\
  wh_run ex_heater [(ex_tank_cold, 1%Z); (ex_tank_cold, 17%Z); (ex_tank_hot, 20%Z)] = Ok ex_heater /\
  wh_run ex_heater [(ex_tank_hot, 1%Z); (ex_tank_cold, 17%Z); (fun f => Ok (100 + 40 * f), 20%Z)]
    = Ok (wh_set ex_heater true).
Proof.
  split; [exists (fun f => 60 + 50 * f); split; [reflexivity|intros; lra]|].
  split; [exists (fun f => 146 + 4 * f); split; [reflexivity|intros; lra]|].
  split; [split; vm_compute; discriminate|]. split; [split; vm_compute; discriminate|].
  vm_compute. auto.
Qed.

(** When a tank state asks for both at once, the heater changes state at every single step. *)
Theorem C30_conflicting_triggers_toggle : forall h tk hour n h',
  (0 <= hour)%Z -> calls_on h (tk, hour) -> calls_off h (tk, hour) ->
  wh_run h (repeat (tk, hour) n) = Ok h' ->
  wh_active h' = xorb (wh_active h) (Nat.odd n).
Proof. exact c30_toggle. Qed.
Print Assumptions C30_conflicting_triggers_toggle.

Example C30_conflicting_triggers_toggle_case :
  let h := wh_new None (Some ["n"%string]) (Some [("n"%string, mkControls (1#4) 140 (3#4) 120 140)]) in
  calls_on h ((fun f => Ok (100 + 40 * f)), 0%Z) /\ calls_off h ((fun f => Ok (100 + 40 * f)), 0%Z).
Proof.
  cbv zeta. split; exists (mkControls (1#4) 140 (3#4) 120 140); eexists;
    (split; [split; [cbn; lia|]; exists ["n"%string], [("n"%string, mkControls (1#4) 140 (3#4) 120 140)], "n"%string;
             repeat split|split; [reflexivity|vm_compute; (reflexivity || discriminate)]]).
Qed.

(** *** C31 *)

(** An idle heater outputs 0; a running one outputs what its performance map says (0 if the map
    has no value), whatever the conditions. *)
Theorem C31_output : forall h oat out inl,
  (wh_active h = false -> wh_output h oat out inl = Ok 0) /\
  (wh_active h = true ->
     (forall c, wh_capacity h oat out inl = Ok (Some c) -> wh_output h oat out inl = Ok c) /\
     (wh_capacity h oat out inl = Ok None -> wh_output h oat out inl = Ok 0) /\
     (forall e, wh_capacity h oat out inl = Err e -> wh_output h oat out inl = Err e)).
Proof. exact c31_output. Qed.
Print Assumptions C31_output.

(** A nominal heater has the same capacity in all conditions, and no power figure. *)
Theorem C31_nominal_constant : forall c s mp oat out inl,
  wh_capacity (wh_new (Some (PmNominal c)) s mp) oat out inl = Ok (Some c) /\
  wh_power (wh_new (Some (PmNominal c)) s mp) oat out inl = Ok None /\
  pm_cop (PmNominal c) oat out inl = Ok None.
Proof. intros. repeat split. Qed.
Print Assumptions C31_nominal_constant.

(** Real maps refuse to answer without an outdoor temperature. *)
Theorem C31_real_maps_need_outdoor_temperature : forall out inl,
  (forall m, hp_capacity m None out inl = Err ValueError /\ hp_power m None out inl = Err ValueError) /\
  (forall m, pk_capacity m None out inl = Err ValueError /\ pk_power m None out inl = Err ValueError).
Proof.
  intros out inl. split; intro m; split; try reflexivity;
  unfold pk_capacity, pk_power; destruct (pk_resolve m out inl); reflexivity.
Qed.
Print Assumptions C31_real_maps_need_outdoor_temperature.

Example C31_case :
  wh_output ex_heater (Some 40) 150 (Some 50) = Ok 0 /\
  wh_output (wh_set ex_heater true) (Some 40) 150 (Some 50) = Ok 200.
Proof. vm_compute. auto. Qed.

(** *** C32 *)

(** The brackets of MODELS_AOSmithHPTS50_R_MP in data/preformanceMaps/maps.json. *)
Definition ex_table : list hp_entry :=
  [ mkHpEntry 50 [8640#1000; -436#10000; 0] [6682#100; 249#100; 0];
    mkHpEntry (675#10) [1082#100; -551#10000; 0] [851#10; 238#100; 0];
    mkHpEntry 95 [1252#100; -534#10000; 0] [89; 262#100; 0] ].
Definition ex_map := mkHpMap ex_table 3 true (Some 40) 50.

Example C32_case : table_ok (hp_perfmap ex_map).
Proof.
  split; [cbn; lia|]. split; [cbn; repeat split; reflexivity|].
  repeat constructor; cbn; lia.
Qed.

(** Between two neighbouring tabulated outdoor temperatures (ends included) the input power and
    the COP are the straight lines through the two tabulated values; above the last tabulated
    temperature they continue the last line. *)
Theorem C32_linear_between_brackets : forall m oat inl out a b pre post,
  table_ok (hp_perfmap m) -> hp_perfmap m = pre ++ a :: b :: post ->
  he_T a <= oat -> (oat <= he_T b \/ post = []) ->
  exists kw cap,
    hp_power m (Some oat) out (Some inl) = Ok kw /\
    hp_capacity m (Some oat) out (Some inl) = Ok cap /\
    kw == qz (hp_units m) * blend a b (rated_kw a inl) (rated_kw b inl) oat /\
    cap == kw * w_to_kbtuh * blend a b (rated_cop a inl) (rated_cop b inl) oat.
Proof. intros. eapply c32_segment; eauto. Qed.
Print Assumptions C32_linear_between_brackets.

(** At a tabulated outdoor temperature the table's own polynomial is returned. *)
Theorem C32_exact_at_brackets : forall m oat inl out e,
  table_ok (hp_perfmap m) -> In e (hp_perfmap m) -> oat == he_T e ->
  exists kw cap,
    hp_power m (Some oat) out (Some inl) = Ok kw /\
    hp_capacity m (Some oat) out (Some inl) = Ok cap /\
    kw == qz (hp_units m) * rated_kw e inl /\
    cap == kw * w_to_kbtuh * rated_cop e inl.
Proof. exact c32_exact. Qed.
Print Assumptions C32_exact_at_brackets.

(** Within the table, interpolated power and COP stay between the two neighbours. *)
Theorem C32_between_neighbours : forall m oat inl out a b pre post lo hi clo chi,
  table_ok (hp_perfmap m) -> hp_perfmap m = pre ++ a :: b :: post ->
  he_T a <= oat -> oat <= he_T b -> (0 < hp_units m)%Z ->
  lo <= rated_kw a inl <= hi -> lo <= rated_kw b inl <= hi ->
  clo <= rated_cop a inl <= chi -> clo <= rated_cop b inl <= chi ->
  exists kw cap cop,
    hp_power m (Some oat) out (Some inl) = Ok kw /\
    hp_capacity m (Some oat) out (Some inl) = Ok cap /\
    qz (hp_units m) * lo <= kw <= qz (hp_units m) * hi /\
    cap == kw * w_to_kbtuh * cop /\ clo <= cop <= chi.
Proof.
  intros m oat inl out a b pre post lo hi clo chi T E Ha Hb U [A1 A2] [B1 B2] [C1 C2] [D1 D2].
  pose proof (increasing_app _ _ _ _ (eq_ind _ increasing (proj1 (proj2 T)) _ E)) as AB.
  destruct (c32_segment m _ oat inl out a b pre post T E eq_refl Ha (or_introl Hb))
    as (kw & cap & K1 & K2 & K3 & K4).
  destruct (blend_between a b (rated_kw a inl) (rated_kw b inl) oat lo hi) as [L1 L2]; auto.
  destruct (blend_between a b (rated_cop a inl) (rated_cop b inl) oat clo chi) as [M1 M2]; auto.
  assert (U0 : 0 < qz (hp_units m)) by (unfold qz; change 0 with (inject_Z 0); rewrite <- Zlt_Qlt; exact U).
  exists kw, cap, (blend a b (rated_cop a inl) (rated_cop b inl) oat).
  split; [exact K1|]. split; [exact K2|]. split; [rewrite K3; split; nra|]. split; [exact K4|auto].
Qed.
Print Assumptions C32_between_neighbours.

(** The input power varies continuously (Lipschitz) with the outdoor temperature from the
    lowest tabulated temperature upwards. *)
Theorem C32_power_continuous : forall m inl out a l,
  table_ok (hp_perfmap m) -> hp_perfmap m = a :: l ->
  exists L, 0 <= L /\ forall o1 o2 k1 k2,
    he_T a <= o1 -> o1 <= o2 ->
    hp_power m (Some o1) out (Some inl) = Ok k1 -> hp_power m (Some o2) out (Some inl) = Ok k2 ->
    Qabs (k1 - k2) <= L * (o2 - o1).
Proof. exact c32_power_lipschitz. Qed.
Print Assumptions C32_power_continuous.

(** Below the lowest tabulated temperature: resistance heat, COP 1, at the nominal capacity
    whatever the number of units. *)
Theorem C32_resistance_below_table : forall m oat inl out e r nominal,
  hp_perfmap m = e :: r -> r <> [] -> oat < he_T e ->
  hp_nominal m = Some nominal -> hp_units m <> 0%Z ->
  exists kw cap,
    hp_power m (Some oat) out inl = Ok kw /\
    hp_capacity m (Some oat) out inl = Ok cap /\
    cap == nominal /\ cap == kw * w_to_kbtuh.
Proof. exact c32_below. Qed.
Print Assumptions C32_resistance_below_table.

(** ... and without a nominal capacity, at the (non-negative) rated output of the first bracket
    at the design inlet temperature, per unit. *)
Theorem C32_resistance_below_table_without_nominal : forall m oat inl out e r,
  hp_perfmap m = e :: r -> r <> [] -> entry_ok e -> oat < he_T e -> hp_nominal m = None ->
  exists kw cap,
    hp_power m (Some oat) out inl = Ok kw /\
    hp_capacity m (Some oat) out inl = Ok cap /\
    cap == kw * w_to_kbtuh /\
    cap == qz (hp_units m) * qmax (qmax (rated_cop e (hp_design_inlet m)) 0 *
                                   rated_kw e (hp_design_inlet m) * w_to_kbtuh) 0.
Proof. exact c32_below_no_nominal. Qed.
Print Assumptions C32_resistance_below_table_without_nominal.

(** The documentation of from_model_name says that without a nominal capacity the resistance
    fallback yields 0; it does not. *)
Theorem C32_fallback_is_zero_without_nominal_refuted :
  exists m oat out inl cap, table_ok (hp_perfmap m) /\ hp_nominal m = None /\
    (forall e, In e (hp_perfmap m) -> oat < he_T e) /\
    hp_capacity m (Some oat) out inl = Ok cap /\ 10 < cap.
Proof.
  exists (mkHpMap ex_table 3 true None 50), 40, 120, (Some 60). eexists.
  split; [exact C32_case|]. split; [reflexivity|]. split.
  - intros e [<-|[<-|[<-|[]]]]; vm_compute; reflexivity.
  - split; vm_compute; reflexivity.
Qed.
Print Assumptions C32_fallback_is_zero_without_nominal_refuted.

(** *** C33 *)

(** COP is capacity over power in consistent units (kBTU/h over kW times kBTU/h per kW); it is
    None exactly when capacity or power is missing or the power is not positive. *)
Theorem C33_cop_is_output_over_input : forall p oat out inl,
  match pm_capacity p oat out inl, pm_power p oat out inl with
  | Ok (Some c), Ok (Some w) =>
      (w <= 0 -> pm_cop p oat out inl = Ok None) /\
      (0 < w -> exists x, pm_cop p oat out inl = Ok (Some x) /\ x * (w * w_to_kbtuh) == c)
  | Ok _, Ok _ => pm_cop p oat out inl = Ok None
  | Err e, _ => pm_cop p oat out inl = Err e
  | Ok _, Err e => pm_cop p oat out inl = Err e
  end.
Proof. exact c33_cop. Qed.
Print Assumptions C33_cop_is_output_over_input.

(** Polynomial maps: at each condition either capacity and power of k units are k times those of
    one unit for every k, or the condition is in the resistance fallback and they are the fixed
    nominal capacity for every k. *)
Theorem C33_units_scale_polynomial_maps : forall m oat out inl,
  (forall k, (0 < k)%Z ->
     res_eq (hp_capacity (hp_with_units m k) oat out inl)
            (do x <- hp_capacity (hp_with_units m 1) oat out inl; Ok (qz k * x)) /\
     res_eq (hp_power (hp_with_units m k) oat out inl)
            (do x <- hp_power (hp_with_units m 1) oat out inl; Ok (qz k * x))) \/
  (exists c, hp_nominal m = Some c /\ forall k, (0 < k)%Z ->
     res_eq (hp_capacity (hp_with_units m k) oat out inl) (Ok c) /\
     res_eq (hp_power (hp_with_units m k) oat out inl) (Ok (c / w_to_kbtuh))).
Proof. exact c33_hp_units. Qed.
Print Assumptions C33_units_scale_polynomial_maps.

(** Tabulated maps: the same, the fallback having COP 1 or COP 1.5. *)
Theorem C33_units_scale_tabulated_maps : forall m oat out inl,
  (forall k, (0 < k)%Z ->
     res_eq (pk_capacity (pk_with_units m k) oat out inl)
            (do x <- pk_capacity (pk_with_units m 1) oat out inl; Ok (qz k * x)) /\
     res_eq (pk_power (pk_with_units m k) oat out inl)
            (do x <- pk_power (pk_with_units m 1) oat out inl; Ok (qz k * x))) \/
  (exists c d, pk_nominal m = Some c /\ (d = 1 \/ d = 3 # 2) /\ forall k, (0 < k)%Z ->
     res_eq (pk_capacity (pk_with_units m k) oat out inl) (Ok c) /\
     res_eq (pk_power (pk_with_units m k) oat out inl) (Ok (c / w_to_kbtuh / d))).
Proof. exact c33_pk_units. Qed.
Print Assumptions C33_units_scale_tabulated_maps.

(** In the fallback, capacity does not scale with the number of units. *)
Theorem C33_fallback_scales_with_units_refuted :
  exists m oat out inl x1 x3, table_ok (hp_perfmap m) /\
    hp_capacity (hp_with_units m 1) oat out inl = Ok x1 /\
    hp_capacity (hp_with_units m 3) oat out inl = Ok x3 /\ ~ x3 == 3 * x1.
Proof.
  exists ex_map, (Some 40), 120, (Some 60). eexists _, _.
  split; [exact C32_case|]. split; [vm_compute; reflexivity|]. split; [vm_compute; reflexivity|].
  vm_compute. discriminate.
Qed.
Print Assumptions C33_fallback_scales_with_units_refuted.

Example C33_case :
  exists c, pm_cop (PmHpwhsim ex_map) (Some 70) 120 (Some 60) = Ok (Some c) /\ 7 < c < 9.
Proof. eexists. split; [vm_compute; reflexivity|]. split; vm_compute; reflexivity. Qed.

(** *** C34 *)

(** A small tabulated map whose interpolator only knows its grid points. *)
Definition ex_pk : pk_map :=
  mkPkMap
    (fun a => match a with
              | [i; o; t] => if (Qeq_bool i 80 && Qeq_bool o 140 && Qeq_bool t 60)%bool then Some 12 else None
              | _ => None end)
    (fun a => match a with
              | [i; o; t] => if (Qeq_bool i 80 && Qeq_bool o 140 && Qeq_bool t 60)%bool then Some 4 else None
              | _ => None end)
    [20; 60; 100] [[(40, [120; 140])]; [(40, [120; 140]); (80, [120; 140]); (110, [140])]; [(40, [120])]]
    120 20 5 8 2 false false 0 (Some 90) 50.

(** The outdoor temperature is snapped to a nearest tabulated one. *)
Theorem C34_nearest_outdoor : forall m oat,
  pk_oats m <> [] ->
  exists i x, pk_idx_nearest_oat m oat = Ok i /\ py_nth (pk_oats m) i = Ok x /\
    nearest (pk_oats m) oat x.
Proof. exact c34_oat. Qed.
Print Assumptions C34_nearest_outdoor.

(** The inlet temperature is snapped to the nearest tabulated one at or above it, except that
    the last tabulated one is used when none at or above it is strictly nearer than the last. *)
Theorem C34_nearest_inlet : forall m oi x entries,
  py_nth (pk_grid m) oi = Ok entries -> entries <> [] ->
  exists ii e, pk_idx_nearest_inlet m oi x = Ok ii /\ py_nth entries ii = Ok e /\
    let lst := last (map fst entries) 0 in
    ((forall z, In z (map fst entries) -> x <= z -> Qabs (lst - x) <= Qabs (z - x)) ->
       fst e = lst) /\
    ((exists z, In z (map fst entries) /\ x <= z /\ Qabs (z - x) < Qabs (lst - x)) ->
       x <= fst e /\ In (fst e) (map fst entries) /\
       forall z, In z (map fst entries) -> x <= z -> Qabs (fst e - x) <= Qabs (z - x)).
Proof. exact c34_inlet. Qed.
Print Assumptions C34_nearest_inlet.

(** The outlet temperature is snapped to a nearest tabulated one if some tabulated outlet is
    nearer to the request than the lowest tabulated OUTDOOR temperature; otherwise the first
    tabulated outlet is taken, however far away. *)
Theorem C34_nearest_outlet : forall m oi ii out entries e o0 rest_oats,
  py_nth (pk_grid m) oi = Ok entries -> py_nth entries ii = Ok e -> snd e <> [] ->
  pk_oats m = o0 :: rest_oats ->
  exists x, pk_nearest_outlet m oi ii out = Ok x /\ In x (snd e) /\
    ((exists z, In z (snd e) /\ Qabs (z - out) < Qabs (o0 - out)) -> nearest (snd e) out x) /\
    ((forall z, In z (snd e) -> Qabs (o0 - out) <= Qabs (z - out)) -> hd_error (snd e) = Some x).
Proof. exact c34_outlet. Qed.
Print Assumptions C34_nearest_outlet.

(** So the snapped outlet is not always a nearest one. *)
Theorem C34_nearest_outlet_always_refuted :
  exists m oi ii out x entries e,
    py_nth (pk_grid m) oi = Ok entries /\ py_nth entries ii = Ok e /\
    pk_nearest_outlet m oi ii out = Ok x /\ ~ nearest (snd e) out x.
Proof.
  exists (mkPkMap (fun _ => None) (fun _ => None) [90; 100] [[(40, [120; 100])]] 120 1 1 1 1
            false false 0 None 50), 0%Z, 0%Z, 94, 120, [(40, [120; 100])], (40, [120; 100]).
  split; [reflexivity|]. split; [reflexivity|]. split; [vm_compute; reflexivity|].
  intros [_ H]. specialize (H 100 (or_intror (or_introl eq_refl))). vm_compute in H. apply H. reflexivity.
Qed.
Print Assumptions C34_nearest_outlet_always_refuted.

(** In-range conditions that the interpolator cannot answer: the result is the interpolator's
    answer at the nearest tabulated outdoor temperature and a tabulated inlet (at the requested
    outlet, or at a tabulated outlet, raised in proportion with the extra output added at COP 1),
    or else the fallback at COP 1.5. *)
Theorem C34_fallback_source : forall m oat inl out o i omin omax,
  pk_oat_min m = Ok omin -> pk_oat_max m = Ok omax -> omin <= oat -> oat < omax ->
  pk_raw m inl out oat = None ->
  pk_per_unit m (Some oat) inl out = Ok (o, i) ->
  (exists soat sinl, nearest (pk_oats m) oat soat /\
     (exists entries, In entries (pk_grid m) /\ In sinl (map fst entries)) /\
     (pk_raw m sinl out soat = Some (o, i) \/
      exists sout o0 i0,
        (exists entries e, In entries (pk_grid m) /\ In e entries /\ fst e = sinl /\ In sout (snd e)) /\
        pk_raw m sinl sout soat = Some (o0, i0) /\
        o - o0 == i - i0 /\
        (sout < out /\ sinl < out -> o == o0 * (1 + (out - sout) / (out - sinl))) /\
        (~ (sout < out /\ sinl < out) -> o = o0))) \/
  (exists er, pk_er_per_unit m = Ok er /\ o = er /\ i == er / (3 # 2)).
Proof. exact c34_fallback. Qed.
Print Assumptions C34_fallback_source.

Example C34_case :
  (* request (inlet 70, outlet 150, outdoor 58): snapped to (80, 140, 60), output raised by 1/7 *)
  pk_raw ex_pk 70 150 58 = None /\
  (exists o i, pk_per_unit ex_pk (Some 58) 70 150 = Ok (o, i) /\ o == 12 * (8 # 7) /\ i == 4 + (12 # 7)).
Proof.
  split; [vm_compute; reflexivity|]. eexists _, _. split; [vm_compute; reflexivity|].
  split; reflexivity.
Qed.
