(** What it means that a history of calls reports its latest answer. *)
From Verif Require Import Prelude M_Sizing M_Session.

(** The answer of the last call that has one, RuntimeError if none has. *)
Fixpoint last_answer {A B} (f : A -> res B) (l : list A) : res B :=
  match l with
  | [] => Err RuntimeError
  | c :: r => match last_answer f r with Ok x => Ok x | Err _ => f c end
  end.

(** The systems sized by the shared procedure: plain and parallel-loop ones, and single-pass
    return-to-primary ones. *)
Inductive shared_sizing : klass -> Prop :=
| shared_base : shared_sizing base_klass
| shared_sprtp ret flow : shared_sizing (sprtp_klass ret flow).

(** A call that asks for a curve. *)
Definition asks_curve (c : call) : Prop :=
  match c with CallSize _ _ _ _ _ _ => False | _ => True end.

(** The stratification slope a call passes to size. *)
Definition sizing_slope (c : call) : res Q :=
  match c with CallSize _ _ _ _ slope _ => Ok slope | _ => Err RuntimeError end.

(** The slope of the last sizing that left figures, or [given]. *)
Definition slope_in_force (K : klass) (new : dhw) (cs : list call) (given : Q) : Q :=
  match last_answer (fun c => do _ <- get_capacity (after K new c); sizing_slope c) cs with Ok x => x | Err _ => given end.
