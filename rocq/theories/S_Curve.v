(** Specification of the run hours a sizing curve sweeps. *)
From Coq Require Import List ZArith QArith.
From Verif Require Import Prelude M_Building S_EngineOut.
Open Scope Q_scope.

(** The hours tried for configured hours [run] and a step: down from 24 while above [run], then down from
    [run] while some hour of the day still asks for more than the heaters bring, by the curve's margin. *)
Definition swept (b : building) (run step h : Q) : Prop :=
  (exists k : nat, h == 24 - qz (Z.of_nat k) * step /\ run < h) \/
  (exists k : nat, h == run - qz (Z.of_nat k) * step /\ storage_needed b h).

(** The list shows this hour. *)
Definition shows (l : list Q) (h : Q) : Prop := exists x, In x l /\ x == h.
