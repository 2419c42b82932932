(** Specification vocabulary for C83: what a building of one named use type consists of. *)
From Verif Require Import Prelude M_Building S_Building S_CaGpd.
Open Scope Q_scope.

(** Gallons a day per unit of magnitude of the use types other than multifamily. *)
Definition type_gallons : list (string * Q) :=
  [("mens_dorm", 23.6); ("womens_dorm", 19.6); ("motel", 21.4); ("nursing_home", 23.4); ("office_building", 2.1);
   ("food_service_a", 11.032); ("food_service_b", 6.44); ("apartment", 54.6); ("elementary_school", 1.34);
   ("junior_high", 3.75); ("senior_high", 3.26)]%string.

(** The gallons per unit [u] that a building of type [t] is given: for multifamily the figure passed in, or, where a
    standard is named, that of the standard. *)
Definition gallons_per_unit (lib : library) (gp : option Q) (std : option string) (br : option (list Z)) (t : string) (u : Q) : Prop :=
  if String.eqb t "multi_family"
  then match std with
       | None => gp = Some u
       | Some k => (k = "ca"%string /\ exists l, br = Some l /\ length l = 6%nat /\ ~ units_of l == 0 /\ u = lib_ca_gpdpp lib l) \/
                   (In k ["ashLow"; "ashMed"; "ecoMark"]%string /\ lib_gpdpp lib k = Ok u)
       end
  else exists u', In (t, u') type_gallons /\ u == u'.

(** Its shapes: the given ones if valid, otherwise those of the library's file, whose average day may be missing. *)
Definition peak_given (lib : library) (t : string) (c : option (list Q)) (p : list Q) : Prop :=
  match c with
  | Some raw => valid_shape raw /\ p = raw
  | None => exists f, lib_file lib t = Some f /\ p = sf_stream f
  end.
Definition avg_given (lib : library) (t : string) (c : option (list Q)) (p : list Q) : Prop :=
  match c with
  | Some raw => valid_shape raw /\ p = raw
  | None => exists f, lib_file lib t = Some f /\ p = match sf_stream_avg f with Some x => x | None => sf_stream f end
  end.

(** Its climate: the given one, else constant design temperatures, else none. *)
Definition climate_given (cz : option climate) (oat inlet : option Q) (c : option climate) : Prop :=
  match cz with
  | Some z => c = Some z
  | None => (oat = None /\ inlet = None /\ c = None) \/
            (~ (oat = None /\ inlet = None) /\ exists z, c = Some z /\ cz_oat z = None /\ cz_inlet z = None /\ cz_const_oat z = oat /\ cz_const_inlet z = inlet)
  end.
