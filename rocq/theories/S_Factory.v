(** Specification vocabulary for C88: the classes for which each factory is usable. *)
From Verif Require Import Prelude M_Building M_Sizing M_Factory.

(** The classes that implement sizing and simulation. *)
Definition sizable : list cls := [CDhw; CInstant; CParallel; CSwing; CSwingER; CSinglePass; CMultiPass].
(** The placeholder classes. *)
Definition placeholders : list cls := [CMPNoRecirc; CSPInParallel; CSPInSeries; CMPInSeries].

(** A system after any number of calls of the placeholder [size], with any buildings. *)
Definition after_sizes (s : dhw) (bs : list building) : dhw :=
  fold_left (fun s b => fst (fst (stub_size s b))) bs s.
