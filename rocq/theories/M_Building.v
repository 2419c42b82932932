(** Model of src/ecoengine/objects/building/Building.py and ClimateZone.py, and of
    get_oat_buckets in src/ecoengine/interfaces/EcosizerEngine.py L13-61.

    Simplifications: floats are exact rationals; the JSON and CSV files are the parameters
    [library], [climate_csv] and lookup tables (lists of rows); numpy broadcasting of arrays of
    different lengths is an error (numpy would broadcast a length-1 array). *)
From Verif Require Import Prelude.

(** Apply a failing function to each element of a list, in order. *)
Fixpoint mapM {A B} (f : A -> res B) (l : list A) : res (list B) :=
  match l with
  | [] => Ok []
  | x :: r => do y <- f x; do ys <- mapM f r; Ok (y :: ys)
  end.

(** ** ClimateZone.py *)

(** ClimateZone.__init__, ClimateZone.py L49-84. *)
Record climate := mkClimate {
  cz_oat : option (list Q); cz_inlet : option (list Q);
  cz_const_oat : option Q; cz_const_inlet : option Q }.

(** from_design_conditions, ClimateZone.py L153-187. *)
Definition cz_from_design (oat inlet : option Q) : climate := mkClimate None None oat inlet.

(** _MONTH_START_DAY, ClimateZone.py L12. *)
Definition month_start_day : list Z := [0; 31; 59; 90; 120; 151; 181; 212; 243; 273; 304; 334]%Z.

(** _day_of_year_to_month, ClimateZone.py L22-30: the loop over 11, 10, ..., 0 ([k] = month + 1). *)
Fixpoint month_scan (day : Z) (k : nat) : Z :=
  match k with
  | O => 0
  | S m => if (nth m month_start_day 0 <=? day)%Z then Z.of_nat m else month_scan day m
  end.
Definition day_of_year_to_month (day : Z) : Z := month_scan day 12.

(** get_oat_f, ClimateZone.py L193-218.  [len(None)] raises TypeError, [% 0] ZeroDivisionError. *)
Definition cz_get_oat (c : climate) (t iv : Z) : res Q :=
  match cz_const_oat c with
  | Some x => Ok x
  | None =>
      match cz_oat c with
      | None => Err TypeError
      | Some l =>
          let n := Z.of_nat (length l) in
          if (n =? 0)%Z then Err ZeroDivisionError
          else py_nth l (((t * iv) / 60) mod n)
      end
  end.

(** get_inlet_water_temp_f, ClimateZone.py L220-245. *)
Definition cz_get_inlet (c : climate) (t iv : Z) : res Q :=
  match cz_const_inlet c with
  | Some x => Ok x
  | None =>
      match cz_inlet c with
      | None => Err TypeError
      | Some l => py_nth l (day_of_year_to_month (((t * iv) / (60 * 24)) mod 365))
      end
  end.

(** Python [min(l)]. *)
Definition py_min (l : list Q) : res Q :=
  match l with [] => Err ValueError | x :: r => Ok (qminl x r) end.

(** get_design_oat_f, ClimateZone.py L251-261. *)
Definition cz_design_oat (c : climate) : res Q :=
  match cz_const_oat c with
  | Some x => Ok x
  | None => match cz_oat c with None => Err TypeError | Some l => py_min l end
  end.

(** get_design_inlet_water_temp_f, ClimateZone.py L263-273. *)
Definition cz_design_inlet (c : climate) : res Q :=
  match cz_const_inlet c with
  | Some x => Ok x
  | None => match cz_inlet c with None => Err TypeError | Some l => py_min l end
  end.

(** The dictionary update [buckets[b] = buckets.get(b, 0) + 1] (float keys, insertion order). *)
Fixpoint bucket_add (b : Q) (d : list (Q * Z)) : list (Q * Z) :=
  match d with
  | [] => [(b, 1%Z)]
  | (k, n) :: r => if Qeq_bool k b then (k, (n + 1)%Z) :: r else (k, n) :: bucket_add b r
  end.

(** The bucket of one day, ClimateZone.py L304-306: Python slicing clips at the end of the list. *)
Definition day_bucket (l : list Q) (day : nat) : Q :=
  let avg := qsum (firstn 24 (skipn (day * 24) l)) / 24 in
  qz (Qfloor (avg / 5)) * 5.

(** get_oat_buckets, ClimateZone.py L275-310. *)
Definition cz_oat_buckets (c : climate) : res (list (Q * Z)) :=
  match cz_oat c with
  | None => Err ValueError
  | Some l => Ok (fold_left (fun d day => bucket_add (day_bucket l day) d) (seq 0 365) [])
  end.

(** A climate CSV after parsing: the data rows, one number per climate zone column. *)
Definition csv_rows := list (list Q).

(** _load_oat_data / _load_inlet_water_data, ClimateZone.py L368-416: column [zone_id - 1] of
    every row, with Python's negative indexing. *)
Definition cz_load_column (rows : csv_rows) (zone_id : Z) : res (list Q) :=
  mapM (fun row => py_nth row (zone_id - 1)) rows.

(** from_zone_id, ClimateZone.py L132-146. *)
Definition cz_from_zone (oat_rows inlet_rows : csv_rows) (zone_id : Z) : res climate :=
  do o <- cz_load_column oat_rows zone_id;
  do i <- cz_load_column inlet_rows zone_id;
  Ok (mkClimate (Some o) (Some i) None None).

(** _lookup_zone_for_zip / _lookup_zone_for_station, ClimateZone.py L316-366: first matching
    row of the lookup table (keys already stripped of blanks). *)
Fixpoint cz_lookup (table : list (string * Z)) (key : string) : res Z :=
  match table with
  | [] => Err ValueError
  | (k, z) :: r => if String.eqb k key then Ok z else cz_lookup r key
  end.

(** from_zip_code / from_weather_station, ClimateZone.py L90-130. *)
Definition cz_from_key (table : list (string * Z)) (oat_rows inlet_rows : csv_rows) (key : string)
  : res climate :=
  do z <- cz_lookup table key; cz_from_zone oat_rows inlet_rows z.

(** EcosizerEngine.get_oat_buckets, EcosizerEngine.py L13-61. *)
Definition engine_oat_buckets (zips stations : list (string * Z)) (oat_rows inlet_rows : csv_rows)
  (zip : option string) (zone : option Z) (station : option string) : res (list (Q * Z)) :=
  match zip, zone, station with
  | Some k, None, None => do c <- cz_from_key zips oat_rows inlet_rows k; cz_oat_buckets c
  | None, Some z, None => do c <- cz_from_zone oat_rows inlet_rows z; cz_oat_buckets c
  | None, None, Some k => do c <- cz_from_key stations oat_rows inlet_rows k; cz_oat_buckets c
  | _, _, _ => Err ValueError
  end.

(** EcosizerEngine.get_weather_stations, EcosizerEngine.py L115-151 (rows already split; rows
    that do not have two fields are not in the table). *)
Definition engine_weather_stations (stations : list (string * Z)) (exclude : option (list Z))
  : list (string * Z) :=
  let ex := match exclude with Some l => l | None => [96%Z] end in
  filter (fun row => negb (existsb (Z.eqb (snd row)) ex)) stations.

(** ** Building.py *)

(** Building.__init__, Building.py L64-113 (the utility tracker is only carried along). *)
Record building := mkBuilding {
  bd_climate : option climate; bd_daily : Q;
  bd_peak : list Q; bd_avg : list Q; bd_type : string }.

Definition bd_new (cz : option climate) (daily : Q) (peak avg : list Q) (ty : string)
  (design_oat design_inlet : option Q) : building :=
  let cz' := match cz, design_oat, design_inlet with
             | None, None, None => None
             | None, o, i => Some (cz_from_design o i)
             | Some c, _, _ => Some c
             end in
  mkBuilding cz' daily peak avg ty.

(** _validate_load_shape, Building.py L43-52. *)
Definition validate_load_shape (l : list Q) : res unit :=
  if negb (Nat.eqb (length l) 24) then Err ValueError
  else if qltb (1 # 1000) (Qabs (qsum l - 1)) then Err ValueError
  else if existsb (fun x => qltb x 0) l then Err ValueError
  else Ok tt.

(** The load-shape library (data/load_shapes/<type>.json, _load_shape_json L33-40): for a known
    type, 'Stream' and, if present, 'Stream_Avg' and 'Annual_Normalized'. *)
Record shape_file := mkShapeFile {
  sf_stream : list Q; sf_stream_avg : option (list Q); sf_annual : option (list Q) }.
(** The library and the standard gallons-per-day-per-person figures (the JSON 'gpdpp' table, and
    the 98th-percentile computation of L344-353 for 'ca', both external here). *)
Record library := mkLibrary {
  lib_file : string -> option shape_file;
  lib_gpdpp : string -> res Q;
  lib_ca_gpdpp : list Z -> Q }.

(** _load_shape_json, Building.py L33-40. *)
Definition load_file (lib : library) (ty : string) : res shape_file :=
  match lib_file lib ty with Some f => Ok f | None => Err ValueError end.

(** _ASHRAE_GPD_PER_UNIT, Building.py L13-26. *)
Definition ashrae_gpd : list (string * Q) :=
  [("mens_dorm", 236 # 10); ("womens_dorm", 196 # 10); ("motel", 214 # 10);
   ("nursing_home", 234 # 10); ("office_building", 21 # 10); ("food_service_a", 11032 # 1000);
   ("food_service_b", 644 # 100); ("apartment", 546 # 10); ("elementary_school", 134 # 100);
   ("junior_high", 375 # 100); ("senior_high", 326 # 100)]%string.

(** [np.array([x / s for x in l])]. *)
Definition div_all (l : list Q) (s : Q) : res (list Q) := mapM (fun x => qdiv x s) l.

(** The standard-GPD choice of a multi_family building, Building.py L335-358.
    [gpdpp]: None or a number (anything else raises ValueError, L378-379); [n_br]: None or a list of
    unit counts. *)
Definition mf_gpdpp (lib : library) (gpdpp : option Q) (std : option string) (n_br : option (list Z)) : res Q :=
  match std with
  | None => match gpdpp with Some g => Ok g | None => Err ValueError end
  | Some k =>
      if negb (existsb (String.eqb k) ["ca"; "ashLow"; "ashMed"; "ecoMark"]%string) then Err ValueError
      else if String.eqb k "ca"%string then
        match n_br with
        | None => Err ValueError
        | Some l =>
            if (negb (Nat.eqb (length l) 6) || (fold_right Z.add 0 l =? 0)%Z)%bool then Err ValueError
            else Ok (lib_ca_gpdpp lib l)
        end
      else lib_gpdpp lib k
  end.

(** _compute_single_gal_and_shapes, Building.py L303-409. *)
Definition compute_single (lib : library) (ty : option string) (mag : option Q)
  (cpeak cavg : option (list Q)) (gpdpp : option Q) (std : option string) (n_br : option (list Z))
  : res (Q * list Q * list Q) :=
  match ty with
  | None =>
      match cpeak with
      | None => Err ValueError
      | Some raw =>
          let s := qsum raw in
          do gp <- match mag with
                   | None => do p <- div_all raw s; Ok (s, p)
                   | Some m =>
                       if qltb (1 # 1000) (Qabs (s - 1)) then do p <- div_all raw s; Ok (m, p)
                       else do _ <- validate_load_shape raw; Ok (m, raw)
                   end;
          let '(g, p) := gp in
          match cavg with
          | Some ra =>
              do a <- div_all ra (qsum ra);
              do _ <- validate_load_shape a;
              Ok (g, p, a)
          | None => Ok (g, p, p)
          end
      end
  | Some t =>
      match mag with
      | None => Err ValueError
      | Some m =>
          if Qle_bool m 0 then Err ValueError
          else
            do g <- (if String.eqb t "multi_family"%string then
                       do x <- mf_gpdpp lib gpdpp std n_br; Ok (x * m)
                     else match dict_get ashrae_gpd t with
                          | Some x => Ok (x * m)
                          | None => Err ValueError
                          end);
            do p <- match cpeak with
                    | Some raw => do _ <- validate_load_shape raw; Ok raw
                    | None => do f <- load_file lib t; Ok (sf_stream f)
                    end;
            do a <- match cavg with
                    | Some raw => do _ <- validate_load_shape raw; Ok raw
                    | None => do f <- load_file lib t;
                              Ok (match sf_stream_avg f with Some x => x | None => sf_stream f end)
                    end;
            Ok (g, p, a)
      end
  end.

(** Element-wise sum of arrays (Python [sum] of numpy arrays): lengths must agree.  Simplified:
    numpy would also spread a shape of a single entry over the hours of the other. *)
Fixpoint vadd (a b : list Q) : res (list Q) :=
  match a, b with
  | [], [] => Ok []
  | x :: a', y :: b' => do r <- vadd a' b'; Ok (x + y :: r)
  | _, _ => Err ValueError
  end.
(** [sum(g * ls for g, ls in zip(gals, shapes))] for a non-empty list. *)
Fixpoint blend_sum (l : list (Q * list Q)) : res (list Q) :=
  match l with
  | [] => Err TypeError
  | [(g, s)] => Ok (map (fun x => g * x) s)
  | (g, s) :: r => do t <- blend_sum r; vadd (map (fun x => g * x) s) t
  end.

(** Arguments of from_building_type: one value or a list. *)
Inductive one_or_many (A B : Type) := One (a : A) | Many (b : B).
Arguments One {A B} a. Arguments Many {A B} b.

(** _normalize_multi_use_shapes, Building.py L280-300. *)
Definition normalize_shapes (c : option (one_or_many (list Q) (list (option (list Q))))) (n : nat)
  : res (list (option (list Q))) :=
  match c with
  | None => Ok (repeat None n)
  | Some (One l) =>
      if (Nat.eqb (length l) 24 || negb (Nat.eqb (length l) n))%bool then Err ValueError
      else Err TypeError
  | Some (Many l) => if negb (Nat.eqb (length l) n) then Err ValueError else Ok l
  end.

(** The loop of _from_multi_use, Building.py L254-262 ([zip] of four lists of equal length). *)
Fixpoint compute_all (lib : library) (tys : list (option string)) (mags : list (option Q))
  (cps cas : list (option (list Q))) (gpdpp : option Q) (std : option string) (n_br : option (list Z))
  : res (list (Q * list Q * list Q)) :=
  match tys, mags, cps, cas with
  | ty :: tys', m :: mags', cp :: cps', ca :: cas' =>
      do x <- compute_single lib ty m cp ca gpdpp std n_br;
      do r <- compute_all lib tys' mags' cps' cas' gpdpp std n_br;
      Ok (x :: r)
  | _, _, _, _ => Ok []
  end.

(** _from_multi_use, Building.py L223-277.  A zero total makes numpy return NaN arrays (with a
    warning); modelled as ZeroDivisionError. *)
Definition from_multi_use (lib : library) (tys : list (option string)) (mags : one_or_many (option Q) (list (option Q)))
  (cz : option climate) (cps cas : option (one_or_many (list Q) (list (option (list Q)))))
  (gpdpp : option Q) (std : option string) (n_br : option (list Z)) (doat dinlet : option Q) : res building :=
  let n := length tys in
  match mags with
  | One _ => Err ValueError
  | Many ms =>
      if negb (Nat.eqb (length ms) n) then Err ValueError
      else
        do cpl <- normalize_shapes cps n;
        do cal <- normalize_shapes cas n;
        do subs <- compute_all lib tys ms cpl cal gpdpp std n_br;
        let total := qsum (map (fun x => fst (fst x)) subs) in
        match subs with
        | [] => Err ZeroDivisionError
        | _ =>
            do sp <- blend_sum (map (fun x => (fst (fst x), snd (fst x))) subs);
            do bp <- div_all sp total;
            do sa <- blend_sum (map (fun x => (fst (fst x), snd x)) subs);
            do ba <- div_all sa total;
            Ok (bd_new cz total bp ba "multi_use" doat dinlet)
        end
  end.

(** is_annual_load_shape, Building.py L415-417. *)
Definition bd_is_annual (b : building) : bool := (Z.of_nat (length (bd_peak b)) =? 8760)%Z.

(** set_to_annual_load_shape, Building.py L419-443. *)
Definition bd_set_annual (lib : library) (b : building) : res building :=
  if negb (String.eqb (bd_type b) "multi_family") then Err ValueError
  else
    do f <- load_file lib "multi_family";
    match sf_annual f with
    | None => Err KeyError
    | Some a => Ok (mkBuilding (bd_climate b) (bd_daily b) a a (bd_type b))
    end.

(** set_to_daily_load_shape, Building.py L445-461. *)
Definition bd_set_daily (lib : library) (b : building) : res building :=
  if negb (String.eqb (bd_type b) "multi_family") then Err ValueError
  else
    do f <- load_file lib "multi_family";
    match sf_stream_avg f with
    | None => Err KeyError
    | Some a => Ok (mkBuilding (bd_climate b) (bd_daily b) (sf_stream f) a (bd_type b))
    end.

(** from_building_type, Building.py L120-221.  A list of shapes given to a single building is
    not a valid shape: modelled as ValueError (Python: ValueError, or TypeError for 24 entries). *)
Definition from_building_type (lib : library)
  (ty : one_or_many (option string) (list (option string)))
  (mag : one_or_many (option Q) (list (option Q)))
  (cz : option climate) (gpdpp : option Q) (std : option string) (n_br : option (list Z))
  (cps cas : option (one_or_many (list Q) (list (option (list Q))))) (annual : bool)
  (doat dinlet : option Q) : res building :=
  let ty' := match ty with Many [t] => One t | x => x end in
  let mag' := match mag with Many [m] => One m | x => x end in
  match ty' with
  | Many tys => from_multi_use lib tys mag' cz cps cas gpdpp std n_br doat dinlet
  | One t =>
      let shape c := match c with
                     | None => Ok None
                     | Some (One l) => Ok (Some l)
                     | Some (Many _) => Err ValueError
                     end in
      do cp <- shape cps;
      do ca <- shape cas;
      do m <- match mag' with One m => Ok m | Many _ => Err ValueError end;
      do r <- compute_single lib t m cp ca gpdpp std n_br;
      let '(g, p, a) := r in
      let b := bd_new cz g p a (match t with Some s => s | None => "custom"%string end) doat dinlet in
      if annual then bd_set_annual lib b else Ok b
  end.

(** get_dhw_load_supplyT_gal, Building.py L467-500. *)
Definition bd_load (b : building) (t iv : Z) (use_avg : bool) : res Q :=
  let ls := if use_avg then bd_avg b else bd_peak b in
  let n := Z.of_nat (length ls) in
  if (n =? 0)%Z then Err ZeroDivisionError
  else do x <- py_nth ls (((t * iv) / 60) mod n);
       Ok (bd_daily b * x * qz iv / 60).

(** get_oat_f / get_inlet_water_temp_f, Building.py L502-536: delegation to the climate zone
    (AttributeError when there is none). *)
Definition bd_oat (b : building) (t iv : Z) : res Q :=
  match bd_climate b with Some c => cz_get_oat c t iv | None => Err AttributeError end.
Definition bd_inlet (b : building) (t iv : Z) : res Q :=
  match bd_climate b with Some c => cz_get_inlet c t iv | None => Err AttributeError end.

(** get_design_oat_f / get_design_inlet_water_temp_f, Building.py L538-558. *)
Definition bd_design_oat (b : building) : res (option Q) :=
  match bd_climate b with Some c => do x <- cz_design_oat c; Ok (Some x) | None => Ok None end.
Definition bd_design_inlet (b : building) : res (option Q) :=
  match bd_climate b with Some c => do x <- cz_design_inlet c; Ok (Some x) | None => Ok None end.
