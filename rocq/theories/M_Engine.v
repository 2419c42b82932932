(** Model of /repo/src/ecoengine/interfaces/EcosizerEngine.py: the model list, the capacity query,
    and the engine object, with the [from_size] constructors it calls and
    PerformanceMap.from_model_name.  Plotly figures are left out; the points they show are kept. *)
From Coq Require Import Ascii.
From Verif Require Import Prelude M_StratifiedTank M_MixedTank M_EnergyTank M_Building M_Heater
  M_Sizing M_SimRun M_Utility M_Step M_Swing M_MPRTP.
Open Scope Q_scope.

(** ** Strings *)

(** Python [s.endswith(t)]. *)
Definition ends_with (s t : string) : bool :=
  ((String.length t <=? String.length s)%nat
   && String.eqb (substring (String.length s - String.length t) (String.length t) s) t)%bool.
(** Python [t in s]. *)
Definition contains (s t : string) : bool :=
  match index 0 t s with Some _ => true | None => false end.
(** Python [s[-k]]. *)
Definition from_end (s : string) (k : nat) : res ascii :=
  if (String.length s <? k)%nat then Err IndexError
  else match String.get (String.length s - k) s with Some c => Ok c | None => Err IndexError end.
(** Python [s.isdigit()] (ASCII digits only; other Unicode digits are not modelled). *)
Definition is_digit (c : ascii) : bool :=
  let n := nat_of_ascii c in ((48 <=? n) && (n <=? 57))%nat.
Fixpoint all_digits (s : string) : bool :=
  match s with EmptyString => true | String c r => (is_digit c && all_digits r)%bool end.
Definition isdigit (s : string) : bool :=
  match s with EmptyString => false | _ => all_digits s end.
(** Python [s.strip()] (ASCII white space only). *)
Definition is_space (c : ascii) : bool :=
  let n := nat_of_ascii c in
  (((9 <=? n) && (n <=? 13)) || ((28 <=? n) && (n <=? 32)))%nat%bool.
Fixpoint lstrip (s : string) : string :=
  match s with
  | EmptyString => EmptyString
  | String c r => if is_space c then lstrip r else s
  end.
Fixpoint rstrip (s : string) : string :=
  match s with
  | EmptyString => EmptyString
  | String c r =>
      match rstrip r with
      | EmptyString => if is_space c then EmptyString else String c EmptyString
      | t => String c t
      end
  end.
Definition strip (s : string) : string := lstrip (rstrip s).
Definition mem (s : string) (l : list string) : bool := existsb (String.eqb s) l.

(** ** The equipment registry, maps.json *)

(** The three pickle files of a model, PerformanceMap.py L131-146. *)
Record pk_files := mkPkFiles {
  pf_out : list Q -> option Q; pf_in : list Q -> option Q;
  pf_oats : list Q; pf_grid : list (list (Q * list Q)); pf_inlet_max : Q;
  pf_out_high : Q; pf_in_high : Q; pf_out_low : Q }.

(** One entry of maps.json.  A missing "secondary_heat_exchanger", "hx_increase" or "SGIP_avail"
    is its default (PerformanceMap.py L117-118, EcosizerEngine.py L101). *)
Record reg_entry := mkEntry {
  re_name : option string; re_sgip : bool; re_hx : bool; re_hx_increase : Q;
  re_pkl : option pk_files; re_perfmap : option (list hp_entry) }.
Definition registry := list (string * reg_entry).

(** get_list_of_models, EcosizerEngine.py L64-112; one entry of the loop, then the loop. *)
Definition keep_model (multi_pass residential sgip_only : bool) (exclude : list string)
  (code : string) (e : reg_entry) : res bool :=
  if mem code exclude then Ok false
  else if (sgip_only && negb (re_sgip e))%bool then Ok false
  else
    do c <- from_end code 4;
    let commercial := Ascii.eqb c "C" in
    if (negb residential && negb commercial)%bool then Ok false
    else
      let is_mp := ends_with code "_MP" in
      if (multi_pass && negb is_mp)%bool then Ok false
      else if (negb multi_pass && is_mp)%bool then Ok false
      else Ok true.
Fixpoint list_models (reg : registry) (multi_pass residential : bool) (exclude : list string)
  (sgip_only : bool) : res (list (string * string)) :=
  match reg with
  | [] => Ok []
  | (code, e) :: rest =>
      do k <- keep_model multi_pass residential sgip_only exclude code e;
      if k then
        match re_name e with
        | None => Err KeyError
        | Some n => do l <- list_models rest multi_pass residential exclude sgip_only; Ok ((code, n) :: l)
        end
      else list_models rest multi_pass residential exclude sgip_only
  end.

(** _TWO_INPUT_PKL_NAMES, PerformanceMap.py L20-24. *)
Definition two_input_names : list string :=
  ["MODELS_SANCO2_C_SP"; "MODELS_COLMAC_R454B_C_SP"; "MODELS_Droplet_C_SP"]%string.

(** PerformanceMap.from_model_name, PerformanceMap.py L71-179. *)
Definition pm_from_model (reg : registry) (model : string) (units : Z) (design_inlet : Q)
  (nominal : option Q) : res perf_map :=
  match dict_get reg model with
  | None => Err ValueError
  | Some e =>
      let multipass := ends_with model "MP" in
      let two_input := (mem model two_input_names || multipass || contains model "Lochinvar")%bool in
      match re_pkl e with
      | Some f =>
          Ok (PmPkl (mkPkMap (pf_out f) (pf_in f) (pf_oats f) (pf_grid f) (pf_inlet_max f)
                       (pf_out_high f) (pf_in_high f) (pf_out_low f) units two_input
                       (re_hx e) (re_hx_increase e) nominal design_inlet))
      | None =>
          match re_perfmap e with
          | Some l => Ok (PmHpwhsim (mkHpMap l units multipass nominal design_inlet))
          | None => Err ValueError
          end
      end
  end.

(** get_hpwh_output_capacity, EcosizerEngine.py L154-206 (a count that is not an int is not
    modelled). *)
Definition output_capacity (reg : registry) (model : string) (oat inlet outlet : Q) (n : Z)
  (as_kw : bool) (derate : Q) : res Q :=
  if negb (Qle_bool 0 derate && Qle_bool derate 1) then Err ValueError
  else if (n <? 1)%Z then Err ValueError
  else
    do pm <- pm_from_model reg model 1 50 None;
    do c <- pm_capacity pm (Some oat) outlet (Some inlet);
    match c with
    | None => Err TypeError
    | Some x =>
        let y := x * (qz n * (1 - derate)) in
        Ok (if as_kw then y / (341214 # 100000) else y)
    end.

(** ** The engine's parameters, EcosizerEngine.py L463-500 *)

(** The forms of [zip_code_or_climate_zone]; [CzOther] is any other Python value. *)
Inductive cz_value :=
  | CzDict (d : list (string * option Q)) | CzStr (s : string) | CzInt (z : Z) | CzOther.

Record eparams := mkParams {
  ep_type : one_or_many (option string) (list (option string));
  ep_mag : one_or_many (option Q) (list (option Q));
  ep_cz : cz_value; ep_supply : Q; ep_storage : Q; ep_schematic : string;
  ep_gpdpp : option Q;
  ep_peak : option (one_or_many (list Q) (list (option (list Q))));
  ep_avg : option (one_or_many (list Q) (list (option (list Q))));
  ep_num : Z; ep_model : option string; ep_run : Q; ep_defrost : Q;
  ep_aq : Q; ep_off_sensor : Q; ep_on_t : option Q; ep_off_t : option Q;
  ep_ls : option (list Z); ep_lu_hours : Z; ep_shed_aq : option Q; ep_lu_aq : option Q;
  ep_shed_off : option Q; ep_lu_off : option Q; ep_lu_off_t : option Q; ep_ls_percent : Q;
  ep_return : option Q; ep_flow : option Q; ep_tm_on : option Q; ep_tm_off : option Q;
  ep_tm_off_time : Q; ep_tm_safety : Q;
  ep_volume : option Q; ep_capacity : option Q; ep_tm_volume : option Q; ep_tm_capacity : option Q;
  ep_tm_model : option string; ep_num_tm : Z }.

(** The data files: zip and station lookup tables, the weather columns, the load shapes, the
    equipment registry; and the quantile function of the load-shift day distribution
    (DHWSystem.py L25-47). *)
Record data := mkData {
  da_zips : list (string * Z); da_stations : list (string * Z);
  da_oat : csv_rows; da_inlet : csv_rows; da_lib : library; da_reg : registry;
  da_icdf : Q -> Q }.

Definition or_default (x : option Q) (d : Q) : Q := match x with Some v => v | None => d end.

(** tm_on_temp_f and tm_off_temp_f, EcosizerEngine.py L655-656. *)
Definition ep_tm_on_temp (p : eparams) : Q := or_default (ep_tm_on p) (ep_supply p).
Definition ep_tm_off_temp (p : eparams) : Q := or_default (ep_tm_off p) (ep_supply p + 8).

(** ** Climate and building *)

(** ClimateZone.from_design_conditions called with the dictionary as keywords,
    ClimateZone.py L151-182: an unknown keyword is a TypeError. *)
Definition cz_from_dict (d : list (string * option Q)) : res climate :=
  if forallb (fun kv => mem (fst kv) ["design_oat_f"; "design_inlet_water_temp_f"]%string) d then
    let get k := match dict_get d k with Some (Some v) => Some v | _ => None end in
    Ok (cz_from_design (get "design_oat_f"%string) (get "design_inlet_water_temp_f"%string))
  else Err TypeError.

(** _build_climate_zone, EcosizerEngine.py L698-714; a station name is stripped before the search,
    ClimateZone.py L357 (so is a zip code, which has no blanks once it is all digits). *)
Definition eng_climate (dt : data) (v : cz_value) : res climate :=
  match v with
  | CzDict d => cz_from_dict d
  | CzStr s =>
      if (isdigit s && (String.length s =? 5)%nat)%bool
      then cz_from_key (da_zips dt) (da_oat dt) (da_inlet dt) s
      else cz_from_key (da_stations dt) (da_oat dt) (da_inlet dt) (strip s)
  | CzInt z =>
      if ((1 <=? z) && (z <=? 96))%Z then cz_from_zone (da_oat dt) (da_inlet dt) z else Err ValueError
  | CzOther => Err ValueError
  end.

(** _build_building, EcosizerEngine.py L680-696. *)
Definition eng_building (dt : data) (p : eparams) : res building :=
  do cz <- eng_climate dt (ep_cz p);
  from_building_type (da_lib dt) (ep_type p) (ep_mag p) (Some cz) (ep_gpdpp p) None None
    (ep_peak p) (ep_avg p) false None None.

(** ** Controls, EcosizerEngine.py L716-778 *)

(** [[h for h, v in enumerate(l) if v == 0][0]], or None. *)
Fixpoint first_zero (i : Z) (l : list Z) : option Z :=
  match l with
  | [] => None
  | v :: r => if (v =? 0)%Z then Some i else first_zero (i + 1) r
  end.

(** The label of one hour, L744-755. *)
Definition hour_label (ls : list Z) (lu_hours : Z) (hour : Z) : res string :=
  do v <- py_nth ls hour;
  if (v =? 0)%Z then Ok "shed"%string
  else match first_zero 0 ls with
       | Some k =>
           if ((0 <? lu_hours) && (k - lu_hours <=? hour) && (hour <? k))%Z
           then Ok "loadUp"%string else Ok "normal"%string
       | None => Ok "normal"%string
       end.

(** _build_control_map.  An empty schedule is falsy. *)
Definition eng_controls (p : eparams) : res (schedule * ctl_map) :=
  let on_t := or_default (ep_on_t p) (ep_supply p) in
  let off_t := or_default (ep_off_t p) (ep_storage p) in
  let normal := mkControls (ep_aq p) on_t (ep_off_sensor p) off_t (ep_storage p) in
  match ep_ls p with
  | None | Some [] => Ok (repeat "normal"%string 24, [("normal"%string, normal)])
  | Some ls =>
      do sched <- mapM (hour_label ls (ep_lu_hours p)) hours24;
      let shed := mkControls (or_default (ep_shed_aq p) (ep_aq p)) on_t
                    (or_default (ep_shed_off p) (ep_off_sensor p)) off_t (ep_storage p) in
      let lu := match ep_lu_aq p with
                | Some a =>
                    if (0 <? ep_lu_hours p)%Z then
                      [("loadUp"%string,
                        mkControls a on_t (or_default (ep_lu_off p) (ep_off_sensor p))
                          (or_default (ep_lu_off_t p) off_t) (ep_storage p))]
                    else []
                | None => []
                end in
      Ok (sched, ("normal"%string, normal) :: ("shed"%string, shed) :: lu)
  end.

(** ** Systems *)

(** The DHWSystem subclass an engine holds, with its sizing attributes and its parts. *)
Inductive esys :=
  | EPrimary (d : dhw) (s : bsys)
  | EParallel (l : ploop) (s : psys)
  | ESwing (w : swing) (s : wsys)
  | ESprtp (d : dhw) (ret flow : Q) (s : bsys)
  | EMprtp (x : mp_built)
  | EInstant (d : dhw).

(** The schematic names, EcosizerEngine.py L806-889 and L1013-1120. *)
Inductive kind := KPrimary | KParallel | KSwing | KSprtp | KMprtp | KInstant.
Definition kind_of (s : string) : option kind :=
  if mem s ["primary_no_recirc"; "singlepass_norecirc"]%string then Some KPrimary
  else if mem s ["parallel_loop"; "paralleltank"]%string then Some KParallel
  else if mem s ["swing_tank"; "swingtank"]%string then Some KSwing
  else if mem s ["single_pass_rtp"; "sprtp"]%string then Some KSprtp
  else if mem s ["multi_pass_rtp"; "mprtp"]%string then Some KMprtp
  else if String.eqb s "instant_wh" then Some KInstant
  else None.

(** _require_recirc_params, EcosizerEngine.py L918-929. *)
Definition require_recirc (p : eparams) : res (Q * Q) :=
  match ep_return p, ep_flow p with
  | Some r, Some f => Ok (r, f)
  | _, _ => Err ValueError
  end.

(** The primary tank and heater every [from_size] builds after sizing, DHWSystem.py L212-221. *)
Definition fs_parts (d : dhw) (slope : Q) (sched : schedule) (m : ctl_map) : res bsys :=
  match dh_min_cap d, dh_min_stor d with
  | Some c, Some v =>
      Ok (mkBsys [wh_new (Some (PmNominal c)) (Some sched) (Some m)] (Some (st_new v slope))
            (dh_supply d) (dh_storage d))
  | _, _ => Err TypeError
  end.

(** DHWSystem.from_size, DHWSystem.py L135-221. *)
Definition fs_primary (lib : library) (b : building) (supply storage run defrost : Q) (sched : schedule)
  (m : ctl_map) (slope fract : Q) : res (building * esys) :=
  let '(d, b', out) := dhw_size base_klass lib (mkDhw supply storage run defrost None None None) b
                         (Some sched) (Some m) slope fract in
  do _ <- out;
  do s <- fs_parts d slope sched m;
  Ok (b', EPrimary d s).

(** SinglePassRTPSystem.from_size, SinglePassRTPSystem.py L46-120. *)
Definition fs_sprtp (lib : library) (b : building) (supply storage ret flow run defrost : Q)
  (sched : schedule) (m : ctl_map) (slope fract : Q) : res (building * esys) :=
  let '(d, b', out) := sprtp_size ret flow lib (mkDhw supply storage run defrost None None None) b
                         (Some sched) (Some m) slope fract in
  do _ <- out;
  do s <- fs_parts d slope sched m;
  Ok (b', ESprtp d ret flow s).

(** ParallelLoopSystem.from_size, ParallelLoopSystem.py L126-233 (one temperature-maintenance
    heater: the engine does not pass num_tm_heaters on). *)
Definition fs_parallel (lib : library) (b : building) (supply storage ret flow on off off_time safety
  run defrost : Q) (num : Z) (sched : schedule) (m : ctl_map) (slope fract : Q) : res (building * esys) :=
  let p0 := mkPloop (mkDhw supply storage run defrost None None None) ret flow on off off_time safety
              num None None in
  let '(p, b', out) := pl_size lib p0 b (Some sched) (Some m) slope fract in
  do _ <- out;
  do s <- fs_parts (pl_dhw p) slope sched m;
  match pl_tm_vol p, pl_tm_cap p with
  | Some v, Some c => do ps <- pl_build s p v c; Ok (b', EParallel p ps)
  | _, _ => Err TypeError
  end.

(** The swing tank's element, SwingSystem.py L161-175; [None] for a capacity of None, which then
    gives no heat (WaterHeater.py L281-283). *)
Definition swing_element (supply : Q) (cap : option Q) : heater :=
  wh_new (match cap with Some c => Some (PmNominal c) | None => None end)
    (Some (repeat "normal"%string 24))
    (Some [("normal"%string, mkControls (1 # 2) supply (1 # 2) (supply + deadband) (supply + deadband))]).

(** SwingSystem.from_size, SwingSystem.py L116-177. *)
Definition fs_swing (lib : library) (b : building) (supply storage ret flow safety run defrost : Q)
  (sched : schedule) (m : ctl_map) (slope fract : Q) : res (building * esys) :=
  do w0 <- sw_new supply storage ret flow safety run defrost;
  let '(w, b', out) := swing_size lib w0 b (Some sched) (Some m) slope fract in
  do _ <- out;
  match dh_min_cap (sw_dhw w), dh_min_stor (sw_dhw w), sw_tm_vol w with
  | Some c, Some v, Some tv =>
      Ok (b', ESwing w (mkWsys [wh_new (Some (PmNominal c)) (Some sched) (Some m)] (st_new v slope)
                          supply storage ret flow (mkMixed tv 0 0) (swing_element supply (sw_tm_cap w))))
  | _, _, _ => Err TypeError
  end.

(** InstantWHSystem.from_size, InstantWHSystem.py L36-60. *)
Definition fs_instant (b : building) (supply storage defrost : Q) : res (building * esys) :=
  do d <- instant_size (mkDhw supply storage 24 defrost None None None) b;
  Ok (b, EInstant d).

(** _build_dhw_system without a volume, EcosizerEngine.py L800-916.  Slopes, the multi-pass
    useable fraction and its boost trials are the [from_size] defaults. *)
Definition eng_sized (dt : data) (p : eparams) (b : building) : res (building * esys) :=
  do sm <- eng_controls p;
  let '(sched, m) := sm in
  do fract <- match ep_ls p with
              | None | Some [] => Ok 1
              | Some _ => ls_fract (da_icdf dt) (ep_ls_percent p)
              end;
  let lib := da_lib dt in
  match kind_of (ep_schematic p) with
  | Some KPrimary =>
      fs_primary lib b (ep_supply p) (ep_storage p) (ep_run p) (ep_defrost p) sched m (28 # 10) fract
  | Some KParallel =>
      do rf <- require_recirc p;
      fs_parallel lib b (ep_supply p) (ep_storage p) (fst rf) (snd rf) (ep_tm_on_temp p)
        (ep_tm_off_temp p) (ep_tm_off_time p) (ep_tm_safety p) (ep_run p) (ep_defrost p) 1 sched m
        (28 # 10) fract
  | Some KSwing =>
      do rf <- require_recirc p;
      fs_swing lib b (ep_supply p) (ep_storage p) (fst rf) (snd rf) (ep_tm_safety p) (ep_run p)
        (ep_defrost p) sched m (28 # 10) fract
  | Some KSprtp =>
      do rf <- require_recirc p;
      fs_sprtp lib b (ep_supply p) (ep_storage p) (fst rf) (snd rf) (ep_run p) (ep_defrost p) sched m
        (17 # 10) fract
  | Some KMprtp =>
      do rf <- require_recirc p;
      let '(b', out) := mp_from_size lib b (ep_supply p) (ep_storage p) (fst rf) (snd rf) 14
                          (ep_defrost p) (Some sched) (Some m) (8 # 10) 1 3 3 in
      do x <- out; Ok (b', EMprtp x)
  | Some KInstant => fs_instant b (ep_supply p) (ep_storage p) (ep_defrost p)
  | None => Err ValueError
  end.

(** The primary heaters of a pre-sized system, EcosizerEngine.py L978-1002; [None / n] is a
    TypeError, and a count below one builds no heater. *)
Definition eng_heaters (dt : data) (p : eparams) (b : building) (sched : schedule) (m : ctl_map)
  : res (list heater) :=
  match ep_model p with
  | Some name =>
      do di <- bd_design_inlet b;
      do pm <- pm_from_model (da_reg dt) name (ep_num p) (sim_inlet di) None;
      Ok [wh_new (Some pm) (Some sched) (Some m)]
  | None =>
      match ep_capacity p with
      | None => Err TypeError
      | Some c =>
          do x <- qdiv c (qz (ep_num p));
          Ok (repeat (wh_new (Some (PmNominal x)) (Some sched) (Some m)) (Z.to_nat (ep_num p)))
      end
  end.

(** _require_tm_params, EcosizerEngine.py L931-940. *)
Definition require_tm (p : eparams) : res Q :=
  match ep_tm_volume p with
  | None => Err ValueError
  | Some v => match ep_tm_capacity p, ep_tm_model p with
              | None, None => Err ValueError
              | _, _ => Ok v
              end
  end.

(** _build_tm_water_heater without force_electric_resistance, EcosizerEngine.py L942-964. *)
Definition eng_tm_heater (dt : data) (p : eparams) (ret : Q) (c : controls) : res heater :=
  do per_unit <- match ep_tm_capacity p with
                 | Some x => do y <- qdiv x (qz (ep_num_tm p)); Ok (Some y)
                 | None => Ok None
                 end;
  do pm <- match ep_tm_model p with
           | Some name => do y <- pm_from_model (da_reg dt) name 1 ret per_unit; Ok (Some y)
           | None => Ok (match per_unit with Some x => Some (PmNominal x) | None => None end)
           end;
  Ok (wh_new pm (Some (repeat "normal"%string 24)) (Some [("normal"%string, c)])).

(** _build_presized_dhw_system, EcosizerEngine.py L966-1139.  The swing element is forced to be
    one nominal heater (L948-949, L1078). *)
Definition eng_presized (dt : data) (p : eparams) (b : building) (vol : Q) : res (building * esys) :=
  do sm <- eng_controls p;
  let '(sched, m) := sm in
  do hs <- eng_heaters dt p b sched m;
  let d run := mkDhw (ep_supply p) (ep_storage p) run (ep_defrost p) None None None in
  let parts slope := mkBsys hs (Some (st_new vol slope)) (ep_supply p) (ep_storage p) in
  match kind_of (ep_schematic p) with
  | Some KPrimary => Ok (b, EPrimary (d (ep_run p)) (parts (28 # 10)))
  | Some KParallel =>
      do rf <- require_recirc p;
      do tv <- require_tm p;
      let on := ep_tm_on_temp p in
      let off := ep_tm_off_temp p in
      do th <- eng_tm_heater dt p (fst rf) (mkControls (1 # 2) on (1 # 2) off off);
      Ok (b, EParallel (mkPloop (d (ep_run p)) (fst rf) (snd rf) on off (ep_tm_off_time p) (ep_tm_safety p)
                          (ep_num_tm p) None None)
               (mkPsys (parts (28 # 10)) (fst rf) (snd rf) on off (ep_num_tm p) (mkMixed tv 0 0) th))
  | Some KSwing =>
      do rf <- require_recirc p;
      do tv <- require_tm p;
      do w <- sw_new (ep_supply p) (ep_storage p) (fst rf) (snd rf) (ep_tm_safety p) (ep_run p) (ep_defrost p);
      Ok (b, ESwing w (mkWsys hs (st_new vol (28 # 10)) (ep_supply p) (ep_storage p) (fst rf) (snd rf)
                         (mkMixed tv 0 0) (swing_element (ep_supply p) (ep_tm_capacity p))))
  | Some KSprtp =>
      do rf <- require_recirc p;
      Ok (b, ESprtp (d (ep_run p)) (fst rf) (snd rf) (parts (17 # 10)))
  | Some KMprtp =>
      do rf <- require_recirc p;
      do di <- bd_design_inlet b;
      Ok (b, EMprtp (mkBuilt (d 14)
               (mkMsys hs (sl_new vol (sim_inlet di) (ep_storage p) (ep_supply p) 1 (8 # 10))
                  (ep_supply p) (ep_storage p) (fst rf) (snd rf))))
  | Some KInstant => Ok (b, EInstant (d 24))
  | None => Err ValueError
  end.

(** An engine object: its building and its system.  EcosizerEngine.__init__ and build,
    EcosizerEngine.py L629-678, and the choice of L797. *)
Record engine := mkEngine { en_building : building; en_system : esys }.
Definition eng_new (dt : data) (p : eparams) : res engine :=
  do b <- eng_building dt p;
  do x <- match ep_volume p with
          | Some v => eng_presized dt p b v
          | None => eng_sized dt p b
          end;
  Ok (mkEngine (fst x) (snd x)).

(** ** Results, EcosizerEngine.py L1145-1225 *)

Definition sys_dhw (s : esys) : dhw :=
  match s with
  | EPrimary d _ => d | EParallel l _ => pl_dhw l | ESwing w _ => sw_dhw w
  | ESprtp d _ _ _ => d | EMprtp x => mb_dhw x | EInstant d => d
  end.

(** get_sizing_results: capacity, storage, and the temperature-maintenance pair when there. *)
Definition eng_results (e : engine) : option Q * option Q * option (Q * option Q) :=
  let d := sys_dhw (en_system e) in
  (dh_min_cap d, dh_min_stor d,
   match en_system e with
   | EParallel l _ => match pl_tm_vol l with Some v => Some (v, pl_tm_cap l) | None => None end
   | ESwing w _ => match sw_tm_vol w with Some v => Some (v, sw_tm_cap w) | None => None end
   | _ => None
   end).

(** get_hw_magnitude, L1227-1235. *)
Definition eng_magnitude (e : engine) : Q := bd_daily (en_building e).

(** simulate_3day and simulate_annual, L1169-1198: [dur] is the duration string; the run and the
    engine as the simulation leaves it. *)
Definition eng_simulate (e : engine) (dur : string) (thr : Q) (maxm : Z) : res (engine * sim_run) :=
  let b := en_building e in
  match en_system e with
  | EPrimary d s =>
      do x <- simulate_base b s dur thr maxm; Ok (mkEngine b (EPrimary d (fst x)), snd x)
  | EParallel l s =>
      do x <- simulate_parallel b s dur thr maxm; Ok (mkEngine b (EParallel l (fst x)), snd x)
  | ESwing w s =>
      do x <- simulate_swing b s dur thr maxm; Ok (mkEngine b (ESwing w (fst x)), snd x)
  | ESprtp d ret flow s =>
      do x <- simulate_sprtp ret flow b s dur thr maxm; Ok (mkEngine b (ESprtp d ret flow (fst x)), snd x)
  | EMprtp x =>
      do y <- simulate_mp b (mb_sys x) dur thr maxm; Ok (mkEngine b (EMprtp (mkBuilt (mb_dhw x) (fst y))), snd y)
  | EInstant d =>
      do x <- simulate_instant b d dur thr maxm; Ok (mkEngine b (EInstant (fst x)), snd x)
  end.
