(** Model of [src/ecoengine/objects/components/storage/EnergyTank.py] and
    [SlugOverlayTank.py]. Definitions only. *)
From Verif Require Import Prelude M_StratifiedTank.
Open Scope Q_scope.

(** EnergyTank.py L62-70: attributes. *)
Record entank := mkEn {
  en_vol      : Q;  (* total_volume_gal *)
  en_cold     : Q;  (* _cold_temp_f *)
  en_storage  : Q;  (* _storage_temp_f *)
  en_slope    : Q;  (* strat_slope *)
  en_energy   : Q;  (* _energy_btu *)
  en_cold_pct : Q   (* _cold_pct *)
}.
Definition en_set_energy (t : entank) (e : Q) : entank :=
  mkEn (en_vol t) (en_cold t) (en_storage t) (en_slope t) e (en_cold_pct t).
Definition en_set_cold (t : entank) (c : Q) : entank :=
  mkEn (en_vol t) c (en_storage t) (en_slope t) (en_energy t) (en_cold_pct t).

(** EnergyTank.py L42-70: [__init__]. *)
Definition en_new (vol cold storage slope : Q) : entank := mkEn vol cold storage slope 0 0.

(** EnergyTank.py L76-79: [_max_energy_btu]. *)
Definition en_max (t : entank) : Q :=
  let usable_vol := (1 - en_cold_pct t / 100) * en_vol t in
  usable_vol * rho_cp * (en_storage t - en_cold t).

(** EnergyTank.py L81-102: [_energy_at_shift_pct]. *)
Definition en_energy_at (t : entank) (s : Q) : res Q :=
  let dT := en_storage t - en_cold t in
  if Qle_bool dT 0 then Ok 0 else
  do x_ramp <- qdiv dT (en_slope t);
  let a := qmax (en_cold_pct t) (qmin 100 (- s)) in
  let b := qmax (en_cold_pct t) (qmin 100 (x_ramp - s)) in
  let I := en_slope t / 2 * ((b + s) ^ 2 - (a + s) ^ 2) + dT * (100 - b) in
  Ok (rho_cp * en_vol t / 100 * I).

(** EnergyTank.py L120-132: the binary search of [_shift_pct_from_energy]; [n] counts the
    iterations left of [range(30)]; [Qred] only normalises the representation. *)
Fixpoint en_search (n : nat) (t : entank) (E tol lo hi : Q) : res Q :=
  match n with
  | O => Ok ((lo + hi) * (1 # 2))
  | S n' =>
      let mid := Qred ((lo + hi) * (1 # 2)) in
      do e_mid <- en_energy_at t mid;
      if qltb (Qabs (e_mid - E)) tol then Ok ((lo + hi) * (1 # 2))
      else if qltb e_mid E then en_search n' t E tol mid hi
      else en_search n' t E tol lo mid
  end.

(** EnergyTank.py L104-132: [_shift_pct_from_energy]. *)
Definition en_shift (t : entank) : res Q :=
  let dT := en_storage t - en_cold t in
  if Qle_bool dT 0 then Ok 0 else
  let E := qmax 0 (qmin (en_energy t) (en_max t)) in
  if Qle_bool E 0 then Ok (-100) else
  if Qle_bool (en_max t) E then qdiv dT (en_slope t) else
  do hi <- qdiv dT (en_slope t);
  let tol := (1 # 1000000) * qmax E 1 in
  en_search 30 t E tol (-100) hi.

(** EnergyTank.py L138-163: [initialize]. *)
Definition en_initialize (t0 : entank) (storage cold percent_useable : Q) : res entank :=
  let t := mkEn (en_vol t0) cold storage (en_slope t0) (en_energy t0) (en_cold_pct t0) in
  let s_init := (percent_useable - 1) * 100 in
  do e <- en_energy_at t s_init;
  Ok (en_set_energy t e).

(** EnergyTank.py L169-182: [get_temperature_at_fraction]. *)
Definition en_temp (t : entank) (fract : Q) : res Q :=
  let x_pct := fract * 100 in
  if qltb x_pct (en_cold_pct t) then Ok (en_cold t) else
  do shift_pct <- en_shift t;
  let temp := en_slope t * (x_pct + shift_pct) + en_cold t in
  Ok (qmax (en_cold t) (qmin (en_storage t) temp)).

(** EnergyTank.py L184-189: [get_usable_volume_supplyT_gal]. *)
Definition en_usable (t : entank) (supply : Q) : res Q :=
  do shift_pct <- en_shift t;
  do r <- qdiv (supply - en_cold t) (en_slope t);
  let x_supply_pct := qmax 0 (qmin 100 (r - shift_pct)) in
  Ok ((100 - x_supply_pct) / 100 * en_vol t).

(** EnergyTank.py L195-214: [draw]. *)
Definition en_draw (t0 : entank) (volume cold supply outlet : Q) : entank :=
  let t := en_set_cold t0 cold in
  if (Qle_bool volume 0 || Qle_bool supply cold)%bool then t else
  let energy_requested := volume * rho_cp * (supply - cold) in
  en_set_energy t (qmax 0 (en_energy t - energy_requested)).

(** EnergyTank.py L216-219: [add_energy_btu]. *)
Definition en_add_energy (t : entank) (btu : Q) : entank :=
  if qltb 0 btu then en_set_energy t (qmin (en_energy t + btu) (en_max t)) else t.

(** EnergyTank.py L221-236: [heat]. *)
Definition en_heat (t : entank) (kbtuh duration_min outlet : Q) : entank :=
  if (Qle_bool kbtuh 0 || Qle_bool outlet (en_cold t))%bool then t else
  let heat_btu := kbtuh * 1000 * duration_min / 60 in
  en_set_energy t (qmin (en_energy t + heat_btu) (en_max t)).

(** EnergyTank.py L238-261: [add_recirc_return]. *)
Definition en_recirc (t : entank) (flow_gpm return_temp duration_min : Q) (supply : option Q) : entank :=
  let t_supply := match supply with Some x => x | None => en_storage t end in
  let loss := flow_gpm * duration_min * rho_cp * (t_supply - return_temp) in
  en_set_energy t (qmax 0 (en_energy t - loss)).

(** EnergyTank.py L263-298: [_zone_average_temp_f]. *)
Definition en_zone_avg (t : entank) (lo_pct hi_pct : Q) : res Q :=
  if Qle_bool hi_pct lo_pct then Ok (en_cold t) else
  do shift_pct <- en_shift t;
  let dT := en_storage t - en_cold t in
  do x_ramp <- (if qltb 0 dT then qdiv dT (en_slope t) else Ok 0);
  let x_cold_pct := qmax 0 (qmin 100 (- shift_pct)) in
  let x_hot_pct := qmax 0 (qmin 100 (x_ramp - shift_pct)) in
  let cold_integral :=
    let lo_c := qmax lo_pct 0 in
    let hi_c := qmin hi_pct x_cold_pct in
    en_cold t * qmax 0 (hi_c - lo_c) in
  let trans_integral :=
    let a := qmax lo_pct x_cold_pct in
    let b := qmin hi_pct x_hot_pct in
    if qltb a b then
      en_slope t / 2 * ((b + shift_pct) ^ 2 - (a + shift_pct) ^ 2) + en_cold t * (b - a)
    else 0 in
  let hot_integral :=
    let lo_h := qmax lo_pct x_hot_pct in
    let hi_h := qmin hi_pct 100 in
    en_storage t * qmax 0 (hi_h - lo_h) in
  qdiv (cold_integral + trans_integral + hot_integral) (hi_pct - lo_pct).

(** EnergyTank.py L300-312: [get_average_draw_temp_f]. *)
Definition en_avg (t : entank) (draw_gal0 : Q) : res Q :=
  let draw_gal := qmin draw_gal0 (en_vol t) in
  if Qle_bool draw_gal 0 then Ok (en_storage t) else
  do q <- qdiv draw_gal (en_vol t);
  let x_draw_pct := qmax 0 (100 - q * 100) in
  en_zone_avg t x_draw_pct 100.

(** EnergyTank.py L314-346: [draw_physical_gal]. *)
Definition en_draw_physical (t0 : entank) (gal inlet : Q) (update_cold : bool) : res entank :=
  let t := if update_cold then en_set_cold t0 inlet else t0 in
  if Qle_bool gal 0 then Ok t else
  do avg_temp <- en_avg t gal;
  let energy_removed := gal * rho_cp * qmax 0 (avg_temp - inlet) in
  Ok (en_set_energy t (qmax 0 (en_energy t - energy_removed))).

(** One public operation of the energy tank, and a history. *)
Inductive en_op : Type :=
  | EInit (storage cold percent_useable : Q)
  | EDraw (volume cold supply outlet : Q)
  | EAdd (btu : Q)
  | EHeat (kbtuh duration_min outlet : Q)
  | ERecirc (flow_gpm return_temp duration_min : Q) (supply : option Q)
  | EDrawPhysical (gal inlet : Q) (update_cold : bool).

Definition en_step (t : entank) (o : en_op) : res entank :=
  match o with
  | EInit s c p => en_initialize t s c p
  | EDraw v c s h => Ok (en_draw t v c s h)
  | EAdd b => Ok (en_add_energy t b)
  | EHeat k d h => Ok (en_heat t k d h)
  | ERecirc f r d s => Ok (en_recirc t f r d s)
  | EDrawPhysical g c u => en_draw_physical t g c u
  end.

Fixpoint en_run (t : entank) (os : list en_op) : res entank :=
  match os with
  | [] => Ok t
  | o :: r => do t' <- en_step t o; en_run t' r
  end.

(** ** SlugOverlayTank *)

(** SlugOverlayTank.py L72-82 and L169: attributes. [sl_orig] is [_original_slug_vol_gal], which
    the source creates on activation; the model starts it at 0, it is read only while active. *)
Record slug := mkSlug {
  sl_base   : entank;
  sl_supply : Q;     (* _supply_temp_f *)
  sl_pu     : Q;     (* percent_useable *)
  sl_max    : Q;     (* _max_usable_vol_gal *)
  sl_active : bool;  (* _slug_active *)
  sl_vol    : Q;     (* _slug_vol_gal *)
  sl_temp   : Q;     (* _slug_temp_f *)
  sl_top    : Q;     (* _slug_top_pct *)
  sl_orig   : Q      (* _original_slug_vol_gal *)
}.

(** SlugOverlayTank.py L47-82: [__init__]. *)
Definition sl_new (vol cold storage supply pu slope : Q) : slug :=
  let cp := (1 - pu) * 100 in
  mkSlug (mkEn vol cold storage slope 0 cp) supply pu (pu * vol) false 0 cold cp 0.

(** SlugOverlayTank.py L88-123: [initialize]. *)
Definition sl_initialize (t : slug) (storage cold percent_useable : Q) : res slug :=
  let b0 := sl_base t in
  let b := mkEn (en_vol b0) cold storage (en_slope b0) (en_energy b0) (en_cold_pct b0) in
  let with_energy e :=
    mkSlug (en_set_energy b e) (sl_supply t) (sl_pu t) (sl_max t) false 0 cold (en_cold_pct b) (sl_orig t) in
  let dT := storage - cold in
  if (Qle_bool dT 0 || Qle_bool (en_slope b) 0 || Qle_bool percent_useable 0)%bool then Ok (with_energy 0) else
  let x_supply_pct := (1 - percent_useable) * 100 in
  do q <- qdiv (sl_supply t - cold) (en_slope b);
  let shift_pct := q - x_supply_pct in
  do e <- en_energy_at b shift_pct;
  Ok (with_energy (qmax 0 (qmin e (en_max b)))).

(** SlugOverlayTank.py L165-168 and L193-196: the slug's top from its volume. *)
Definition sl_top_of (b : entank) (vol : Q) : res Q :=
  if qltb 0 (en_vol b) then
    do q <- qdiv vol (en_vol b); Ok (en_cold_pct b + q * 100)
  else Ok (en_cold_pct b).

(** SlugOverlayTank.py L133-169: [activate_slug]. *)
Definition sl_activate (t : slug) (supply : Q) : res slug :=
  if sl_active t then Ok t else
  let b := sl_base t in
  do shift_pct <- en_shift b;
  do q <- qdiv (supply - en_cold b) (en_slope b);
  let x_supply_pct := qmax (en_cold_pct b) (qmin 100 (q - shift_pct)) in
  let vol := qmax 0 ((x_supply_pct - en_cold_pct b) / 100 * en_vol b) in
  do temp <- (if qltb 0 vol then en_zone_avg b (en_cold_pct b) x_supply_pct else Ok (en_cold b));
  do top <- sl_top_of b vol;
  Ok (mkSlug b (sl_supply t) (sl_pu t) (sl_max t) true vol temp top vol).

(** SlugOverlayTank.py L171-196: [add_to_slug]. *)
Definition sl_add (t : slug) (draw_gal inlet : Q) : res slug :=
  if (negb (sl_active t) || Qle_bool draw_gal 0)%bool then Ok t else
  do tv <- (if Qle_bool (sl_vol t) 0 then Ok (inlet, draw_gal)
            else do x <- qdiv (sl_vol t * sl_temp t + draw_gal * inlet) (sl_vol t + draw_gal);
                 Ok (x, sl_vol t + draw_gal));
  let '(temp, vol) := tv in
  do top <- sl_top_of (sl_base t) vol;
  Ok (mkSlug (sl_base t) (sl_supply t) (sl_pu t) (sl_max t) (sl_active t) vol temp top (sl_orig t)).

(** SlugOverlayTank.py L198-211: [heat_slug] (the documented cap is not in the code). *)
Definition sl_heat (t : slug) (kbtuh duration_min : Q) : res slug :=
  if (negb (sl_active t) || Qle_bool (sl_vol t) 0 || Qle_bool kbtuh 0)%bool then Ok t else
  let heat_btu := kbtuh * 1000 * duration_min / 60 in
  do dt <- qdiv heat_btu (sl_vol t * rho_cp);
  Ok (mkSlug (sl_base t) (sl_supply t) (sl_pu t) (sl_max t) (sl_active t) (sl_vol t) (sl_temp t + dt) (sl_top t) (sl_orig t)).

(** SlugOverlayTank.py L218-254: [deactivate_slug]. *)
Definition sl_deactivate (t : slug) : res slug :=
  if negb (sl_active t) then Ok t else
  let b := sl_base t in
  let slug_btu := qmax 0 (sl_vol t * rho_cp * (sl_temp t - en_cold b)) in
  do e <- (if Qle_bool 100 (sl_top t) then Ok slug_btu
           else
             let growth := sl_vol t - sl_orig t in
             let above_gal := qmax 0 (sl_max t - sl_vol t) in
             let above_pct := 100 - sl_top t in
             do gq <- qdiv growth (en_vol b);
             let top_of_tank := 100 - gq * 100 in
             do above_temp <- en_zone_avg b (top_of_tank - above_pct) top_of_tank;
             Ok (qmax 0 (above_gal * rho_cp * (above_temp - en_cold b)) + slug_btu));
  Ok (mkSlug (en_set_energy b e) (sl_supply t) (sl_pu t) (sl_max t) false 0 (en_cold b) (en_cold_pct b) 0).

(** SlugOverlayTank.py L260-276: [get_average_draw_temp_f]. *)
Definition sl_avg (t : slug) (draw_gal : Q) : res Q :=
  let b := sl_base t in
  if negb (sl_active t) then en_avg b draw_gal else
  do dq <- qdiv draw_gal (en_vol b);
  let draw_pct := dq * 100 in
  if Qle_bool (sl_top t) (100 - draw_pct) then en_avg b draw_gal else
  let non_slug := 100 - sl_top t in
  let slug_pct := draw_pct - non_slug in
  do a <- en_avg b (en_vol b * (non_slug / 100));
  qdiv (a * non_slug + sl_temp t * slug_pct) draw_pct.

(** SlugOverlayTank.py L278-298: [get_temperature_at_fraction]. *)
Definition sl_temp_at (t : slug) (fract : Q) : res Q :=
  let b := sl_base t in
  if negb (sl_active t) then en_temp b fract else
  let x_pct := fract * 100 in
  if qltb x_pct (en_cold_pct b) then Ok (en_cold b) else
  if Qle_bool x_pct (sl_top t) then Ok (qmax (en_cold b) (qmin (en_storage b) (sl_temp t))) else
  let growth := sl_vol t - sl_orig t in
  do g <- qdiv growth (en_vol b);
  en_temp b (fract - g).

(** SlugOverlayTank.py L300-312: [get_usable_volume_supplyT_gal]. *)
Definition sl_usable (t : slug) (supply : Q) : res Q :=
  let b := sl_base t in
  if negb (sl_active t) then do u <- en_usable b supply; Ok (qmin u (en_vol b * sl_pu t)) else
  let hot := sl_max t - sl_vol t in
  let sl := if Qle_bool supply (sl_temp t) then sl_vol t else 0 in
  Ok (hot + sl).

(** SlugOverlayTank.py L314-352: [draw_physical_gal]. *)
Definition sl_draw_physical (t : slug) (gal inlet : Q) (update_cold : bool) : res slug :=
  if negb (sl_active t) then
    do b <- en_draw_physical (sl_base t) gal inlet update_cold;
    Ok (mkSlug b (sl_supply t) (sl_pu t) (sl_max t) (sl_active t) (sl_vol t) (sl_temp t) (sl_top t) (sl_orig t))
  else
  let available := qmax 0 (sl_max t - sl_vol t) in
  let over := qltb available gal in
  let vol := if over then sl_vol t - (gal - available) else sl_vol t in
  let t1 := mkSlug (sl_base t) (sl_supply t) (sl_pu t) (sl_max t) (sl_active t) vol (sl_temp t) (sl_top t) (sl_orig t) in
  do t2 <- sl_add t1 gal inlet;
  if over then
    Ok (mkSlug (sl_base t2) (sl_supply t2) (sl_pu t2) (sl_max t2) (sl_active t2) (sl_max t2) (sl_temp t2) 100 (sl_orig t2))
  else Ok t2.

(** The operations inherited unchanged from EnergyTank ([draw], [add_energy_btu], [heat],
    [add_recirc_return], EnergyTank.py L195-261) act on the energy alone, slug or not. *)
Definition sl_set_base (t : slug) (b : entank) : slug :=
  mkSlug b (sl_supply t) (sl_pu t) (sl_max t) (sl_active t) (sl_vol t) (sl_temp t) (sl_top t) (sl_orig t).

(** One slug operation, and a history. *)
Inductive sl_op : Type :=
  | LInit (storage cold percent_useable : Q)
  | LActivate (supply : Q)
  | LAdd (draw_gal inlet : Q)
  | LHeat (kbtuh duration_min : Q)
  | LDeactivate
  | LDrawPhysical (gal inlet : Q) (update_cold : bool)
  | LDraw (volume cold supply outlet : Q)
  | LAddEnergy (btu : Q)
  | LHeatTank (kbtuh duration_min outlet : Q)
  | LRecirc (flow_gpm return_temp duration_min : Q) (supply : option Q).

Definition sl_step (t : slug) (o : sl_op) : res slug :=
  match o with
  | LInit s c p => sl_initialize t s c p
  | LActivate s => sl_activate t s
  | LAdd g c => sl_add t g c
  | LHeat k d => sl_heat t k d
  | LDeactivate => sl_deactivate t
  | LDrawPhysical g c u => sl_draw_physical t g c u
  | LDraw v c s h => Ok (sl_set_base t (en_draw (sl_base t) v c s h))
  | LAddEnergy b => Ok (sl_set_base t (en_add_energy (sl_base t) b))
  | LHeatTank k d h => Ok (sl_set_base t (en_heat (sl_base t) k d h))
  | LRecirc f r d s => Ok (sl_set_base t (en_recirc (sl_base t) f r d s))
  end.

Fixpoint sl_run (t : slug) (os : list sl_op) : res slug :=
  match os with
  | [] => Ok t
  | o :: r => do t' <- sl_step t o; sl_run t' r
  end.
