(** Specification vocabulary for the location argument (C64). *)
From Coq Require Import Ascii.
From Verif Require Import Prelude M_Building M_Engine.
Open Scope Q_scope.

(** A 5-digit zip code. *)
Definition digit (c : ascii) : Prop := In c ["0"; "1"; "2"; "3"; "4"; "5"; "6"; "7"; "8"; "9"]%char.
Definition zip_code (s : string) : Prop :=
  exists a b c d e, Forall digit [a; b; c; d; e] /\
    s = String a (String b (String c (String d (String e EmptyString)))).
(** White space, and a text without it at either end. *)
Definition blank (c : ascii) : Prop :=
  In (nat_of_ascii c) [9; 10; 11; 12; 13; 28; 29; 30; 31; 32]%nat.
Fixpoint blanks (s : string) : Prop :=
  match s with EmptyString => True | String c r => blank c /\ blanks r end.
Definition trimmed (t : string) : Prop :=
  (forall c r, t = String c r -> ~ blank c) /\ (forall c r, t = (r ++ String c EmptyString)%string -> ~ blank c).
(** [t] is [s] without the white space around it. *)
Definition trim (s t : string) : Prop :=
  trimmed t /\ exists a b, blanks a /\ blanks b /\ s = (a ++ t ++ b)%string.

(** Zone [z]'s column of a data file, one entry per row. *)
Definition zone_column (rows : csv_rows) (z : Z) (l : list Q) : Prop :=
  Forall2 (fun row x => nth_error row (Z.to_nat (z - 1)) = Some x) rows l.
(** The weather of zone [z]. *)
Definition zone_weather (dt : data) (z : Z) (c : climate) : Prop :=
  (1 <= z)%Z /\ exists oat inlet, zone_column (da_oat dt) z oat /\ zone_column (da_inlet dt) z inlet /\
    c = mkClimate (Some oat) (Some inlet) None None.
(** The entry of a keyword dictionary; absent is None. *)
Definition keyword (d : list (string * option Q)) (k : string) (v : option Q) : Prop :=
  In (k, v) d \/ (v = None /\ forall w, ~ In (k, w) d).

(** The climate a location argument stands for. *)
Inductive site (dt : data) : cz_value -> climate -> Prop :=
  | site_design d oat inlet : NoDup (map fst d) ->
      (forall k v, In (k, v) d -> k = "design_oat_f"%string \/ k = "design_inlet_water_temp_f"%string) ->
      keyword d "design_oat_f" oat -> keyword d "design_inlet_water_temp_f" inlet ->
      site dt (CzDict d) (mkClimate None None oat inlet)
  | site_zip s z c : zip_code s -> In (s, z) (da_zips dt) -> zone_weather dt z c -> site dt (CzStr s) c
  | site_station s t z c : ~ zip_code s -> trim s t -> In (t, z) (da_stations dt) -> zone_weather dt z c ->
      site dt (CzStr s) c
  | site_zone z c : (z <= 96)%Z -> zone_weather dt z c -> site dt (CzInt z) c.

(** A dictionary has every key once. *)
Definition argument (v : cz_value) : Prop := match v with CzDict d => NoDup (map fst d) | _ => True end.

(** Lookup tables that list each key once, with zone numbers from 1 to 96, and data files with 96 columns. *)
Definition table_sound (t : list (string * Z)) : Prop :=
  NoDup (map fst t) /\ forall k z, In (k, z) t -> (1 <= z <= 96)%Z.
Definition columns96 (rows : csv_rows) : Prop := Forall (fun row => length row = 96%nat) rows.
Definition tables_sound (dt : data) : Prop :=
  table_sound (da_zips dt) /\ table_sound (da_stations dt) /\ columns96 (da_oat dt) /\ columns96 (da_inlet dt).
