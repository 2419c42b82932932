(** Specification vocabulary for C04_builds and C03_shape_only_building: the parts of a
    mixed-use building. *)
From Verif Require Import Prelude M_Building S_Building.

(** The custom shapes of a mixed-use building with [n] uses: none, or one entry per use. *)
Definition one_per_use (c : option (one_or_many (list Q) (list (option (list Q))))) (n : nat) : Prop :=
  match c with
  | None => True
  | Some (Many l) => length l = n
  | Some (One _) => False
  end.

(** [subs] are the buildings that the uses would be, each built on its own from its own type,
    size and custom shapes. *)
Definition built_alone (lib : library) (tys : list (option string)) (ms : list (option Q))
  (cz : option climate) (gp : option Q) (std : option string) (br : option (list Z))
  (cps cas : option (one_or_many (list Q) (list (option (list Q))))) (doat din : option Q)
  (subs : list building) : Prop :=
  length subs = length tys /\
  forall i ty m cp ca s,
    nth_error tys i = Some ty -> nth_error ms i = Some m ->
    custom_at cps i = Some cp -> custom_at cas i = Some ca -> nth_error subs i = Some s ->
    from_building_type lib (One ty) (One m) cz gp std br (as_single cp) (as_single ca) false doat din = Ok s.

(** All the lists have one length. *)
Definition same_length (l : list (list Q)) : Prop := exists n, forall x, In x l -> length x = n.
