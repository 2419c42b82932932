(** Model of src/ecoengine/objects/building/UtilityCostTracker.py.

    Simplifications: floats are exact rationals.  A rate parameter that is None or not a number is
    [None]; a month that is None or not an int is [None].  CSV text is a grid of typed cells: a
    blank, an integer literal, a decimal literal, a date or other text; Python's float -> text ->
    float round trip is exact, so a number is written as itself. *)
From Verif Require Import Prelude M_Building.

(** Hours in the (non-leap) year the tracker covers. *)
Definition year_hours : Z := 8760.

(** _MONTH_HOUR_START, UtilityCostTracker.py L13-27. *)
Definition month_hour_start : list Z :=
  [0; 744; 1416; 2160; 2880; 3624; 4344; 5088; 5832; 6552; 7296; 8016; 8760]%Z.

(** _hour_to_month, UtilityCostTracker.py L40-45: scan of 11, 10, ..., 0 ([k] = month + 1). *)
Fixpoint hour_scan (h : Z) (k : nat) : Z :=
  match k with
  | O => 0
  | S m => if (nth m month_hour_start 0 <=? h)%Z then Z.of_nat m else hour_scan h m
  end.
Definition hour_to_month (h : Z) : Z := hour_scan h 12.

(** _is_hour_in_range, UtilityCostTracker.py L48-64. *)
Definition is_hour_in_range (hod : Z) (start stop : option Q) : bool :=
  match start, stop with
  | Some s, Some e =>
      if qltb e s then (Qle_bool s (qz hod) || qltb (qz hod) e)%bool
      else (Qle_bool s (qz hod) && qltb (qz hod) e)%bool
  | _, _ => false
  end.

(** The list-normalised rate parameters of from_params. *)
Record params := mkParams {
  pr_base : option Q;
  pr_pk_start : list (option Q); pr_pk_end : list (option Q);
  pr_pk_demand : list (option Q); pr_pk_energy : list (option Q);
  pr_off_demand : list (option Q); pr_off_energy : list (option Q);
  pr_start_month : list (option Z); pr_end_month : list (option Z);
  pr_include_discount : bool;
  pr_dc_start : list (option Q); pr_dc_end : list (option Q);
  pr_dc_demand : list (option Q); pr_dc_energy : list (option Q) }.

(** One round of the loop of _validate_params, UtilityCostTracker.py L98-151; [n] is the common
    length, so [nth] never falls back on its default. *)
Definition validate_entry (p : params) (n i : nat) : res unit :=
  match nth i (pr_pk_start p) None with
  | None => Err ValueError
  | Some s =>
      if (qltb s 0 || qltb 23 s)%bool then Err ValueError
      else match nth i (pr_pk_end p) None with
      | None => Err ValueError
      | Some e =>
          if (qltb e s || qltb 24 e)%bool then Err ValueError
          else match nth i (pr_pk_demand p) None, nth i (pr_off_demand p) None,
                     nth i (pr_pk_energy p) None, nth i (pr_off_energy p) None with
          | Some _, Some _, Some _, Some _ =>
              match nth i (pr_start_month p) None with
              | None => Err ValueError
              | Some sm =>
                  if (match i with
                      | O => negb (sm =? 0)%Z
                      | S j => match nth j (pr_end_month p) None with
                               | Some em => negb (sm =? em)%Z
                               | None => true
                               end
                      end) then Err ValueError
                  else match nth i (pr_end_month p) None with
                  | None => Err ValueError
                  | Some em =>
                      if (em <=? sm)%Z then Err ValueError
                      else if (Nat.eqb i (n - 1) && negb (em =? 12)%Z)%bool then Err ValueError
                      else Ok tt
                  end
              end
          | _, _, _, _ => Err ValueError
          end
      end
  end.

Fixpoint validate_loop (p : params) (n : nat) (is : list nat) : res unit :=
  match is with
  | [] => Ok tt
  | i :: r => do _ <- validate_entry p n i; validate_loop p n r
  end.

(** _validate_params, UtilityCostTracker.py L67-151. *)
Definition validate_params (p : params) : res unit :=
  match pr_base p with
  | None => Err ValueError
  | Some _ =>
      let n := length (pr_pk_start p) in
      if negb (Nat.eqb (length (pr_pk_end p)) n && Nat.eqb (length (pr_pk_demand p)) n &&
               Nat.eqb (length (pr_pk_energy p)) n && Nat.eqb (length (pr_off_demand p)) n &&
               Nat.eqb (length (pr_off_energy p)) n && Nat.eqb (length (pr_start_month p)) n &&
               Nat.eqb (length (pr_end_month p)) n)%bool
      then Err ValueError
      else validate_loop p n (seq 0 n)
  end.

(** Dictionaries with int keys, in insertion order. *)
Fixpoint zget {A} (d : list (Z * A)) (k : Z) : option A :=
  match d with [] => None | (k', v) :: r => if (k' =? k)%Z then Some v else zget r k end.
Fixpoint zset {A} (d : list (Z * A)) (k : Z) (v : A) : list (Z * A) :=
  match d with
  | [] => [(k, v)]
  | (k', v') :: r => if (k' =? k)%Z then (k, v) :: r else (k', v') :: zset r k v
  end.
Definition zhas {A} (d : list (Z * A)) (k : Z) : bool :=
  match zget d k with Some _ => true | None => false end.

(** UtilityCostTracker.__init__, UtilityCostTracker.py L265-285.  A discount charge may be None,
    hence the optional rates. *)
Record tracker := mkTracker {
  ut_chart : list Z;
  ut_demand : list (Z * option Q); ut_energy : list (Z * option Q);
  ut_peak : list (Z * bool); ut_disc : list (Z * bool);
  ut_base : Q; ut_by_hour : list Q; ut_include_discount : bool }.

(** The rates of one season, as passed to _fill_period_maps. *)
Record season := mkSeason {
  se_off_demand : option Q; se_pk_demand : option Q;
  se_off_energy : option Q; se_pk_energy : option Q;
  se_pk_start : option Q; se_pk_end : option Q;
  se_start : Z; se_end : Z;
  se_dc_energy : option Q; se_dc_demand : option Q;
  se_dc_start : option Q; se_dc_end : option Q }.

(** The integers lo, lo+1, ..., hi-1 (Python [range]). *)
Definition zrange (lo hi : Z) : list Z :=
  map (fun i => (lo + Z.of_nat i)%Z) (seq 0 (Z.to_nat (hi - lo))).

(** First loop of _fill_period_maps, L182-204, for one month. *)
Definition fill_month_maps (s : season) (disc : bool) (np : Z) (u : tracker) (m : Z) : tracker :=
  let ok := (m * np)%Z in let pk := (m * np + 1)%Z in let dk := (m * np + 2)%Z in
  let d1 := zset (zset (ut_demand u) ok (se_off_demand s)) pk (se_pk_demand s) in
  let e1 := zset (zset (ut_energy u) ok (se_off_energy s)) pk (se_pk_energy s) in
  let p1 := zset (zset (ut_peak u) ok false) pk true in
  let c1 := zset (zset (ut_disc u) ok false) pk false in
  if disc
  then mkTracker (ut_chart u) (zset d1 dk (se_dc_demand s)) (zset e1 dk (se_dc_energy s))
         (zset p1 dk false) (zset c1 dk true) (ut_base u) (ut_by_hour u) (ut_include_discount u)
  else mkTracker (ut_chart u) d1 e1 p1 c1 (ut_base u) (ut_by_hour u) (ut_include_discount u).

(** The period key written for hour [h] of month [m], L213-222. *)
Definition period_of_hour (s : season) (disc : bool) (np m h : Z) : Z :=
  let hod := (h mod 24)%Z in
  if is_hour_in_range hod (se_pk_start s) (se_pk_end s) then m * np + 1
  else if (disc && is_hour_in_range hod (se_dc_start s) (se_dc_end s))%bool then m * np + 2
  else m * np.

(** The loop [for h in range(lo, hi): chart[h] = f(h)] on an array whose first entry has index
    [i]: every index of the range is written once. *)
Fixpoint write_range (i lo hi : Z) (f : Z -> Z) (l : list Z) : list Z :=
  match l with
  | [] => []
  | x :: r => (if (lo <=? i)%Z && (i <? hi)%Z then f i else x)%bool :: write_range (i + 1) lo hi f r
  end.

(** Second loop of _fill_period_maps, L206-222, for one month (0 <= m < 12 after validation). *)
Definition fill_month_chart (s : season) (disc : bool) (np : Z) (u : tracker) (m : Z) : tracker :=
  let lo := nth (Z.to_nat m) month_hour_start 0%Z in
  let hi := nth (Z.to_nat m + 1) month_hour_start 0%Z in
  mkTracker (write_range 0 lo hi (period_of_hour s disc np m) (ut_chart u))
    (ut_demand u) (ut_energy u) (ut_peak u) (ut_disc u) (ut_base u) (ut_by_hour u)
    (ut_include_discount u).

(** _fill_period_maps, UtilityCostTracker.py L154-222. *)
Definition fill_period_maps (u : tracker) (s : season) (disc : bool) (np : Z) : tracker :=
  let months := zrange (se_start s) (se_end s) in
  fold_left (fill_month_chart s disc np) months
    (fold_left (fill_month_maps s disc np) months u).

(** The arguments of round [i], L386-397.  The discount lists are not validated: a short one
    raises IndexError.  The validated months are ints. *)
Definition season_at (p : params) (i : nat) : res season :=
  match nth_error (pr_dc_energy p) i, nth_error (pr_dc_demand p) i,
        nth_error (pr_dc_start p) i, nth_error (pr_dc_end p) i,
        nth i (pr_start_month p) None, nth i (pr_end_month p) None with
  | Some de, Some dd, Some ds, Some dn, Some sm, Some em =>
      Ok (mkSeason (nth i (pr_off_demand p) None) (nth i (pr_pk_demand p) None)
            (nth i (pr_off_energy p) None) (nth i (pr_pk_energy p) None)
            (nth i (pr_pk_start p) None) (nth i (pr_pk_end p) None) sm em de dd ds dn)
  | _, _, _, _, _, _ => Err IndexError
  end.

Fixpoint fill_loop (p : params) (is : list nat) (u : tracker) : res tracker :=
  match is with
  | [] => Ok u
  | i :: r =>
      do s <- season_at p i;
      fill_loop p r (fill_period_maps u s (pr_include_discount p)
                       (if pr_include_discount p then 3 else 2))
  end.

(** from_params after list normalisation, UtilityCostTracker.py L367-417. *)
Definition from_params (p : params) : res tracker :=
  do _ <- validate_params p;
  match pr_base p with
  | None => Err ValueError
  | Some base =>
      fill_loop p (seq 0 (length (pr_pk_start p)))
        (mkTracker (repeat 0%Z (Z.to_nat year_hours)) [] [] [] [] base [] (pr_include_discount p))
  end.

(** _to_list, UtilityCostTracker.py L361-364, for the validated and for the discount lists. *)
Definition to_list {A} (v : one_or_many A (list A)) : list A :=
  match v with One x => [x] | Many l => l end.
Definition to_list_n {A} (v : one_or_many A (list A)) (n : nat) : list A :=
  match v with One x => repeat x n | Many l => l end.

(** *** Look-ups *)

(** [math.floor(step / (60.0 / timestep_min))], L579 and L597. *)
Definition hour_of_step (step iv : Z) : res Z :=
  do r <- qdiv 60 (qz iv);
  do x <- qdiv (qz step) r;
  Ok (Qfloor x).

(** get_demand_period_at_step, UtilityCostTracker.py L584-598. *)
Definition ut_period_at (u : tracker) (step iv : Z) : res Z :=
  do h <- hour_of_step step iv; py_nth (ut_chart u) h.

(** get_energy_charge_at_step, UtilityCostTracker.py L563-582. *)
Definition ut_energy_at (u : tracker) (step iv : Z) : res (option Q) :=
  do h <- hour_of_step step iv;
  if (Z.of_nat (length (ut_by_hour u)) =? year_hours)%Z
  then do x <- py_nth (ut_by_hour u) h; Ok (Some x)
  else do k <- py_nth (ut_chart u) h;
       match zget (ut_energy u) k with Some x => Ok x | None => Err KeyError end.

(** get_demand_charge_for_period, UtilityCostTracker.py L600-623. *)
Definition ut_demand_charge (u : tracker) (k : Z) (max_kw : Q) : res Q :=
  match zget (ut_demand u) k with
  | None => Err ValueError
  | Some None => Err TypeError
  | Some (Some d) => Ok (d * max_kw)
  end.

(** get_all_demand_period_keys, L625-627; get_yearly_base_charge, L629-631. *)
Definition ut_keys (u : tracker) : list Z := map fst (ut_demand u).
Definition ut_yearly_base (u : tracker) : Q := ut_base u * 12.

(** *** CSV *)

Inductive cell := CBlank | CInt (z : Z) | CNum (q : Q) | CDate (month day hour : Z) | CText.

(** [float(text)] and [int(text)]; None = ValueError. *)
Definition cell_float (c : cell) : option Q :=
  match c with CInt z => Some (qz z) | CNum q => Some q | _ => None end.
Definition cell_int (c : cell) : option Z := match c with CInt z => Some z | _ => None end.

(** The value of a rate in a CSV: None is written as an empty field. *)
Definition cell_of (x : option (option Q)) : cell :=
  match x with Some (Some q) => CNum q | _ => CBlank end.

Definition csv_header : list string :=
  ["Date"; "Demand Period"; "Energy Rate ($/kWh)"; "Demand Rate ($/kW)"; "Monthly Base Charge"]%string.

(** The loop of to_csv, UtilityCostTracker.py L664-684, from hour [h] with its counters. *)
Fixpoint csv_rows_from (u : tracker) (chart : list Z) (h month day : Z) (seen : list Z) : list (list cell) :=
  match chart with
  | [] => []
  | period :: rest =>
      let new_month := ((0 <? h) && (h =? nth (Z.to_nat (month + 1)) month_hour_start 0))%Z%bool in
      let month' := if new_month then (month + 1)%Z else month in
      let day' := if new_month then 1%Z
                  else if (negb (h =? 0) && (h mod 24 =? 0))%Z%bool then (day + 1)%Z else day in
      let first := negb (existsb (Z.eqb period) seen) in
      let er := if first then cell_of (zget (ut_energy u) period) else CBlank in
      let dr := if first then cell_of (zget (ut_demand u) period) else CBlank in
      let bc := if (h =? 0)%Z then CNum (ut_base u) else CBlank in
      [CDate month' day' (h mod 24); CInt period; er; dr; bc]
        :: csv_rows_from u rest (h + 1) month' day' (if first then period :: seen else seen)
  end.

(** to_csv, UtilityCostTracker.py L637-684: header and 8760 rows (the chart has 8760 entries). *)
Definition to_csv (u : tracker) : list string * list (list cell) :=
  (csv_header, csv_rows_from u (firstn (Z.to_nat year_hours) (ut_chart u)) 0 0 1 []).

(** [header.index(name)]: first position of a column that is present. *)
Fixpoint col_index (header : list string) (name : string) : option nat :=
  match header with
  | [] => None
  | x :: r => if String.eqb x name then Some O
              else match col_index r name with Some i => Some (S i) | None => None end
  end.

(** One row of the loop of from_csv, UtilityCostTracker.py L505-546. *)
Definition csv_row (ei di pi : nat) (u : tracker) (row : list cell) : res tracker :=
  match nth_error row pi with
  | None => Err ValueError
  | Some c =>
      match cell_int c with
      | None => Err ValueError
      | Some k =>
          let es := nth ei row CBlank in
          do e <- match es with
                  | CBlank => match zget (ut_energy u) k with
                              | Some (Some x) => Ok x
                              | _ => Err ValueError
                              end
                  | _ => match cell_float es with Some x => Ok x | None => Err ValueError end
                  end;
          let chart := ut_chart u ++ [k] in
          let byh := ut_by_hour u ++ [e] in
          if zhas (ut_demand u) k
          then Ok (mkTracker chart (ut_demand u) (ut_energy u) (ut_peak u) (ut_disc u) (ut_base u) byh false)
          else
            match cell_float (nth di row CBlank), cell_float es with
            | Some d, Some e' =>
                Ok (mkTracker chart (zset (ut_demand u) k (Some d)) (zset (ut_energy u) k (Some e'))
                      (zset (ut_peak u) k (k mod 2 =? 1)%Z) (zset (ut_disc u) k false)
                      (ut_base u) byh false)
            | _, _ => Err ValueError
            end
      end
  end.

Fixpoint csv_loop (ei di pi : nat) (u : tracker) (rows : list (list cell)) : res tracker :=
  match rows with
  | [] => Ok u
  | r :: rest => do u' <- csv_row ei di pi u r; csv_loop ei di pi u' rest
  end.

(** from_csv, UtilityCostTracker.py L420-557.  The chart array, filled from the front, is grown
    by appending; the maps of an energy charge hold floats only. *)
Definition from_csv (file : list string * list (list cell)) : res tracker :=
  let '(header, rows) := file in
  if negb (Z.of_nat (length rows) =? year_hours)%Z then Err ValueError
  else
    match col_index header "Energy Rate ($/kWh)", col_index header "Demand Rate ($/kW)",
          col_index header "Demand Period", col_index header "Monthly Base Charge" with
    | Some ei, Some di, Some pi, Some bi =>
        match nth_error (nth 0 rows []) bi with
        | None => Err ValueError
        | Some c =>
            match cell_float c with
            | None => Err ValueError
            | Some base => csv_loop ei di pi (mkTracker [] [] [] [] [] base [] false) rows
            end
        end
    | _, _, _, _ => Err ValueError
    end.
