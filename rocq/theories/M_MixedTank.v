(** Model of [src/ecoengine/objects/components/storage/MixedStorageTank.py]. Definitions only. *)
From Verif Require Import Prelude M_StratifiedTank.
Open Scope Q_scope.

(** MixedStorageTank.py L34-35, L62-63: attributes. *)
Record mixed := mkMixed {
  mx_vol  : Q;  (* total_volume_gal *)
  mx_temp : Q;  (* _temperature_f *)
  mx_cold : Q   (* _cold_temp_f *)
}.
Definition mx_set_temp (t : mixed) (x : Q) : mixed := mkMixed (mx_vol t) x (mx_cold t).
Definition mx_set_cold (t : mixed) (c : Q) : mixed := mkMixed (mx_vol t) (mx_temp t) c.

(** MixedStorageTank.py L41-63: [initialize]. *)
Definition mx_initialize (t : mixed) (storage cold percent_useable : Q) : mixed :=
  mkMixed (mx_vol t) storage cold.

(** MixedStorageTank.py L69-71 and L241-243: temperature at a height, average draw temperature. *)
Definition mx_temp_at (t : mixed) (fract : Q) : Q := mx_temp t.
Definition mx_avg (t : mixed) (draw_gal : Q) : Q := mx_temp t.

(** MixedStorageTank.py L73-75: [get_usable_volume_supplyT_gal]. *)
Definition mx_usable (t : mixed) (supply : Q) : Q := if Qle_bool supply (mx_temp t) then mx_vol t else 0.

(** MixedStorageTank.py L81-125: [draw]. *)
Definition mx_draw (t0 : mixed) (volume cold supply outlet : Q) : res mixed :=
  let t := mx_set_cold t0 cold in
  if (Qle_bool (mx_temp t) cold || Qle_bool volume 0)%bool then Ok t else
  do physical <- qdiv (volume * (supply - cold)) (qmax (mx_temp t - cold) (1 # 1000000));
  let remaining := mx_vol t - physical in
  if Qle_bool remaining 0 then Ok (mx_set_temp t cold) else
  let total_energy := remaining * rho_cp * mx_temp t + physical * rho_cp * cold in
  do x <- qdiv total_energy (mx_vol t * rho_cp);
  Ok (mx_set_temp t x).

(** MixedStorageTank.py L127-153: [heat] (the cap at [outlet] is commented out in the source). *)
Definition mx_heat (t : mixed) (kbtuh duration_min outlet : Q) : res mixed :=
  if Qle_bool kbtuh 0 then Ok t else
  let heat_kbtu := kbtuh * duration_min / 60 in
  do delta_t <- qdiv (heat_kbtu * 1000) (mx_vol t * rho_cp);
  Ok (mx_set_temp t (mx_temp t + delta_t)).

(** MixedStorageTank.py L155-188: [add_recirc_return]. *)
Definition mx_recirc (t : mixed) (flow_gpm return_temp duration_min : Q) : res mixed :=
  let vol_circulated := flow_gpm * duration_min in
  do delta_t <- qdiv (vol_circulated * (return_temp - mx_temp t)) (mx_vol t);
  Ok (mx_set_temp t (mx_temp t + delta_t)).

(** MixedStorageTank.py L190-209: [apply_fixed_heat_loss_kbtuh]. *)
Definition mx_fixed_loss (t : mixed) (kbtuh duration_min : Q) : res mixed :=
  if (Qle_bool kbtuh 0 || Qle_bool duration_min 0)%bool then Ok t else
  let heat_kbtu := kbtuh * duration_min / 60 in
  do delta_t <- qdiv (heat_kbtu * 1000) (mx_vol t * rho_cp);
  Ok (mx_set_temp t (mx_temp t - delta_t)).

(** MixedStorageTank.py L211-239: [mix_primary_inflow]. *)
Definition mx_inflow (t : mixed) (gal primary_temp : Q) : res mixed :=
  if Qle_bool gal 0 then Ok t else
  let remaining := mx_vol t - gal in
  if Qle_bool remaining 0 then Ok (mx_set_temp t primary_temp) else
  let total_energy := gal * rho_cp * primary_temp + remaining * rho_cp * mx_temp t in
  do x <- qdiv total_energy (mx_vol t * rho_cp);
  Ok (mx_set_temp t x).

(** MixedStorageTank.py L245-269: [draw_physical_gal]. *)
Definition mx_draw_physical (t : mixed) (gal inlet : Q) : res mixed :=
  if Qle_bool gal 0 then Ok t else
  let remaining := mx_vol t - gal in
  if Qle_bool remaining 0 then Ok (mx_set_temp t inlet) else
  let total_energy := remaining * rho_cp * mx_temp t + gal * rho_cp * inlet in
  do x <- qdiv total_energy (mx_vol t * rho_cp);
  Ok (mx_set_temp t x).

(** One public operation, and a history. *)
Inductive mx_op : Type :=
  | MInit (storage cold percent_useable : Q)
  | MDraw (volume cold supply outlet : Q)
  | MHeat (kbtuh duration_min outlet : Q)
  | MRecirc (flow_gpm return_temp duration_min : Q)
  | MLoss (kbtuh duration_min : Q)
  | MInflow (gal primary_temp : Q)
  | MDrawPhysical (gal inlet : Q).

Definition mx_step (t : mixed) (o : mx_op) : res mixed :=
  match o with
  | MInit s c p => Ok (mx_initialize t s c p)
  | MDraw v c s h => mx_draw t v c s h
  | MHeat k d h => mx_heat t k d h
  | MRecirc f r d => mx_recirc t f r d
  | MLoss k d => mx_fixed_loss t k d
  | MInflow g p => mx_inflow t g p
  | MDrawPhysical g c => mx_draw_physical t g c
  end.

Fixpoint mx_run (t : mixed) (os : list mx_op) : res mixed :=
  match os with
  | [] => Ok t
  | o :: r => do t' <- mx_step t o; mx_run t' r
  end.
