(** Model of [src/ecoengine/objects/components/storage/StratifiedTank.py] and of the
    constants in [src/ecoengine/constants/constants.py]. Definitions only. *)
From Verif Require Import Prelude.
Open Scope Q_scope.

(** constants/constants.py: [_RHO_CP = 8.353535] (BTU per gallon and degree F). *)
Definition rho_cp : Q := 8353535 # 1000000.
(** constants/constants.py: [_W_TO_KBTUH = 3.412142]. *)
Definition w_to_kbtuh : Q := 3412142 # 1000000.

(** StratifiedTank.py L54-61: the attributes of a StratifiedTank object. *)
Record strat := mkStrat {
  st_vol    : Q;  (* total_volume_gal *)
  st_slope  : Q;  (* strat_slope *)
  st_delta  : Q;  (* _delta_gal *)
  st_inter  : Q;  (* _strat_inter *)
  st_inlet  : Q;  (* _inlet_temp_f *)
  st_outlet : Q   (* _outlet_temp_f *)
}.

(** Attribute assignments [self._x = v]. *)
Definition set_delta (t : strat) (d : Q) : strat :=
  mkStrat (st_vol t) (st_slope t) d (st_inter t) (st_inlet t) (st_outlet t).
Definition set_inlet (t : strat) (c : Q) : strat :=
  mkStrat (st_vol t) (st_slope t) (st_delta t) (st_inter t) c (st_outlet t).
Definition set_outlet (t : strat) (h : Q) : strat :=
  mkStrat (st_vol t) (st_slope t) (st_delta t) (st_inter t) (st_inlet t) h.

(** StratifiedTank.py L37-61: [__init__]. *)
Definition st_new (vol slope : Q) : strat := mkStrat vol slope 0 0 50 140.

(** StratifiedTank.py L67-98: [initialize]. *)
Definition st_initialize (t : strat) (storage cold percent_useable : Q) : strat :=
  let x_cold_pct := (1 - percent_useable) * 100 in
  mkStrat (st_vol t) (st_slope t) 0 (cold - st_slope t * x_cold_pct) cold storage.

(** StratifiedTank.py L104-121: [get_temperature_at_fraction]. *)
Definition st_temp (t : strat) (fract : Q) : res Q :=
  let x_pct := fract * 100 in
  do q <- qdiv (st_delta t) (st_vol t);
  let shift_pct := q * 100 in
  let temp := st_slope t * (x_pct + shift_pct) + st_inter t in
  Ok (qmax (st_inlet t) (qmin (st_outlet t) temp)).

(** StratifiedTank.py L123-142: [get_usable_volume_supplyT_gal]. *)
Definition st_usable (t : strat) (supply : Q) : res Q :=
  do q <- qdiv (st_delta t) (st_vol t);
  let shift_pct := q * 100 in
  do r <- qdiv (supply - st_inter t) (st_slope t);
  let x_supply_pct := qmax 0 (qmin 100 (r - shift_pct)) in
  let usable_fract := (100 - x_supply_pct) / 100 in
  Ok (usable_fract * st_vol t).

(** StratifiedTank.py L148-164: [_delta_gal_floor]. *)
Definition st_floor (t : strat) (min_temp : option Q) : res Q :=
  let t_floor := match min_temp with Some x => x | None => st_inlet t end in
  do r <- qdiv (t_floor - st_inter t) (st_slope t);
  let shift_pct_min := r - 100 in
  Ok (shift_pct_min * st_vol t / 100).

(** StratifiedTank.py L328-382: [get_average_draw_temp_f]. *)
Definition st_avg (t : strat) (draw_gal0 : Q) : res Q :=
  let draw_gal := qmin draw_gal0 (st_vol t) in
  if Qle_bool draw_gal 0 then Ok (st_outlet t) else
  do q <- qdiv (st_delta t) (st_vol t);
  let shift_pct := q * 100 in
  do d <- qdiv draw_gal (st_vol t);
  let x_draw_pct := qmax 0 (100 - d * 100) in
  do rc <- qdiv (st_inlet t - st_inter t) (st_slope t);
  let x_cold_pct := qmax 0 (qmin 100 (rc - shift_pct)) in
  do rh <- qdiv (st_outlet t - st_inter t) (st_slope t);
  let x_hot_pct := qmax 0 (qmin 100 (rh - shift_pct)) in
  (* cold zone *)
  let cold_integral :=
    let lo := qmax x_draw_pct 0 in
    let hi := qmin 100 x_cold_pct in
    st_inlet t * qmax 0 (hi - lo) in
  (* transition zone *)
  let trans_integral :=
    let a := qmax x_draw_pct x_cold_pct in
    let b := qmin 100 x_hot_pct in
    if qltb a b then
      st_slope t / 2 * ((b + shift_pct) ^ 2 - (a + shift_pct) ^ 2) + st_inter t * (b - a)
    else 0 in
  (* hot zone *)
  let hot_integral :=
    let lo := qmax x_draw_pct x_hot_pct in
    st_outlet t * qmax 0 (100 - lo) in
  let total_width := 100 - x_draw_pct in
  if Qle_bool total_width 0 then Ok (st_outlet t)
  else qdiv (cold_integral + trans_integral + hot_integral) total_width.

(** StratifiedTank.py L229-244: the binary search of [draw]; [n] counts the iterations left of
    [range(52)]. [Qred] only normalises the representation of the rational [mid]. *)
Fixpoint st_search (n : nat) (t : strat) (cold supply_delta demand lo hi : Q) : res (Q * Q) :=
  match n with
  | O => Ok (lo, hi)
  | S n' =>
      let mid := Qred ((lo + hi) * (1 # 2)) in
      do avg_t <- st_avg t mid;
      do yield_mid <- (if qltb cold avg_t then qdiv (mid * (avg_t - cold)) supply_delta else Ok 0);
      let lo' := if qltb yield_mid demand then mid else lo in
      let hi' := if qltb yield_mid demand then hi else mid in
      if qltb (hi' - lo') (1 # 1000000) then Ok (lo', hi')
      else st_search n' t cold supply_delta demand lo' hi'
  end.

(** StratifiedTank.py L166-247: [draw]. On an exception the Python object keeps the two
    temperatures assigned at L207-208; the model only reports the exception. *)
Definition st_draw (t0 : strat) (volume cold supply outlet : Q) : res strat :=
  let t := set_outlet (set_inlet t0 cold) outlet in
  if (Qle_bool outlet cold || Qle_bool volume 0)%bool then Ok t else
  let supply_delta := supply - cold in
  let outlet_delta := outlet - cold in
  do physical_vol <- qdiv (volume * supply_delta) outlet_delta;
  do avg_temp <- st_avg t physical_vol;
  if Qle_bool (outlet - (1 # 1000000)) avg_temp then
    let t1 := set_delta t (st_delta t - physical_vol) in
    do fl <- st_floor t1 (Some supply);
    Ok (set_delta t1 (qmax (st_delta t1) fl))
  else
    do lohi <- st_search 52 t cold supply_delta volume physical_vol (st_vol t);
    let '(lo, hi) := lohi in
    let t1 := set_delta t (st_delta t - qmin ((lo + hi) * (1 # 2)) (st_vol t)) in
    do fl <- st_floor t1 (Some supply);
    Ok (set_delta t1 (qmax (st_delta t1) fl)).

(** StratifiedTank.py L249-288: [heat]. *)
Definition st_heat (t0 : strat) (kbtuh duration_min outlet : Q) : res strat :=
  let t := set_outlet t0 outlet in
  if (Qle_bool kbtuh 0 || Qle_bool outlet (st_inlet t))%bool then Ok t else
  let heat_kbtu := kbtuh * duration_min / 60 in
  do v_heated <- qdiv (heat_kbtu * 1000) (rho_cp * (outlet - st_inlet t));
  let t1 := set_delta t (st_delta t + v_heated) in
  do shift_pct_max <- qdiv (outlet - st_inter t) (st_slope t);
  let delta_gal_max := shift_pct_max * st_vol t / 100 in
  Ok (set_delta t1 (qmin (st_delta t1) delta_gal_max)).

(** StratifiedTank.py L290-326: [add_recirc_return]. *)
Definition st_recirc (t : strat) (flow_gpm return_temp duration_min : Q) (supply : option Q) : res strat :=
  if Qle_bool (st_outlet t) (st_inlet t) then Ok t else
  let t_supply := match supply with Some x => x | None => st_outlet t end in
  let vol_gal := flow_gpm * duration_min in
  let recirc_loss_kbtu := vol_gal * rho_cp * (t_supply - return_temp) / 1000 in
  do net <- qdiv (recirc_loss_kbtu * 1000) (rho_cp * (st_outlet t - st_inlet t));
  Ok (set_delta t (st_delta t - net)).

(** StratifiedTank.py L384-413: [draw_physical_gal]. *)
Definition st_draw_physical (t0 : strat) (gal inlet : Q) (supply : option Q) : res strat :=
  let t := set_inlet t0 inlet in
  if qltb 0 gal then
    let t1 := set_delta t (st_delta t - gal) in
    do fl <- st_floor t1 supply;
    Ok (set_delta t1 (qmax (st_delta t1) fl))
  else Ok t.

(** StratifiedTank.py L419-446: [get_stratification_factor]. *)
Definition st_strat_factor (t : strat) (on_fract supply storage : Q) : res Q :=
  if Qle_bool storage supply then Ok 0 else
  do p <- qdiv (storage - supply) (st_slope t);
  Ok (qmax 0 (p * (1 - on_fract))).

(** One public operation on the tank, and a history of operations. *)
Inductive st_op : Type :=
  | SInit (storage cold percent_useable : Q)
  | SDraw (volume cold supply outlet : Q)
  | SHeat (kbtuh duration_min outlet : Q)
  | SRecirc (flow_gpm return_temp duration_min : Q) (supply : option Q)
  | SDrawPhysical (gal inlet : Q) (supply : option Q).

Definition st_step (t : strat) (o : st_op) : res strat :=
  match o with
  | SInit s c p => Ok (st_initialize t s c p)
  | SDraw v c s h => st_draw t v c s h
  | SHeat k d h => st_heat t k d h
  | SRecirc f r d s => st_recirc t f r d s
  | SDrawPhysical g c s => st_draw_physical t g c s
  end.

Fixpoint st_run (t : strat) (os : list st_op) : res strat :=
  match os with
  | [] => Ok t
  | o :: r => do t' <- st_step t o; st_run t' r
  end.
