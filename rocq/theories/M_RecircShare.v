(** The share of a single-pass return-to-primary system's capacity that it reports for the loop. *)
From Verif Require Import Prelude M_Building M_Heater M_Sizing.
Open Scope Q_scope.

(** The system with its [_recirc_capacity_kbtuh], SinglePassRTPSystem.py L157: the attribute does
    not exist ([None]) until a size() has reached that line. *)
Record rtp_sys := mkRtp { rt_dhw : dhw; rt_share : option Q }.

(** One call of size() and its arguments. *)
Record sizing_call := mkSizing {
  sz_lib : library; sz_building : building; sz_sched : option schedule; sz_map : option ctl_map; sz_slope : Q; sz_fract : Q }.

(** SinglePassRTPSystem.size, SinglePassRTPSystem.py L126-162: the attribute is set only when the
    base sizing returned and the division succeeded. *)
Definition rtp_size (ret flow : Q) (o : rtp_sys) (c : sizing_call) : rtp_sys * res unit :=
  let '(s, _, out) := sprtp_size ret flow (sz_lib c) (rt_dhw o) (sz_building c) (sz_sched c) (sz_map c) (sz_slope c) (sz_fract c) in
  match out with
  | Ok q => (mkRtp s (Some q), Ok tt)
  | Err e => (mkRtp s (rt_share o), Err e)
  end.

(** get_recirc_capacity_kbtuh, SinglePassRTPSystem.py L164-178. *)
Definition rtp_get_share (o : rtp_sys) : res Q :=
  match rt_share o with None => Err RuntimeError | Some q => Ok q end.

(** Any sequence of size() calls on one object, the caller catching what they raise. *)
Fixpoint rtp_sizings (ret flow : Q) (o : rtp_sys) (l : list sizing_call) : rtp_sys * list (res unit) :=
  match l with
  | [] => (o, [])
  | c :: r =>
      let '(o1, out) := rtp_size ret flow o c in
      let '(o2, outs) := rtp_sizings ret flow o1 r in
      (o2, out :: outs)
  end.
