(** Model of the California daily-demand figure of
    /repo/src/ecoengine/objects/building/Building.py L365-374: day totals, numpy percentile, rounding. *)
From Verif Require Import Prelude M_Building.
From Coq Require Import Qround.
Open Scope Q_scope.

(** np.sort of the values (numpy sorts them before interpolating), as insertion sort. *)
Fixpoint insert (x : Q) (l : list Q) : list Q :=
  match l with [] => [x] | y :: r => if Qle_bool x y then x :: l else y :: insert x r end.
Fixpoint np_sort (l : list Q) : list Q := match l with [] => [] | x :: r => insert x (np_sort r) end.

(** np.percentile(a, q) with its default linear interpolation: position q/100 * (n - 1) of the sorted values,
    between the two neighbouring entries (the last one is its own upper neighbour). *)
Definition np_percentile (l : list Q) (q : Q) : res Q :=
  let s := np_sort l in
  let n := Z.of_nat (length l) in
  let pos := q / 100 * qz (n - 1) in
  let lo := Qfloor pos in
  do a <- py_nth s lo;
  do b <- py_nth s (Z.min (lo + 1) (n - 1));
  Ok (a + (b - a) * (pos - qz lo)).

(** [daily_totals = np.zeros(365)] and the loop over the six unit sizes, L370-372.  Arrays of another length than
    365 raise ValueError (a broadcast single entry left out). *)
Fixpoint add_rows (acc : list Q) (rows : list (list Q)) (n_br : list Z) : res (list Q) :=
  match rows, n_br with
  | row :: rows', n :: n_br' =>
      do t <- vadd acc (map (fun x => qz n * x) row);
      add_rows t rows' n_br'
  | _, _ => Ok acc
  end.
Definition day_totals (rows : list (list Q)) (n_br : list Z) : res (list Q) := add_rows (repeat 0 365) rows n_br.

(** Python's round to the nearest integer, ties to even, and [round(x, 1)], here of the exact number. *)
Definition round_even (x : Q) : Z :=
  let f := Qfloor x in
  let d := x - qz f in
  if qltb d (1 # 2) then f else if qltb (1 # 2) d then (f + 1)%Z else if Z.even f then f else (f + 1)%Z.
Definition round1 (x : Q) : Q := qz (round_even (x * 10)) / 10.

(** Building.py L370-373: the 98th percentile of the day totals per unit, to one decimal.  [rows] is the
    'ca_gpdpp' table of the multi_family file, [n_br] was checked to have six entries of non-zero sum. *)
Definition ca_gpdpp (rows : list (list Q)) (n_br : list Z) : res Q :=
  do t <- day_totals rows n_br;
  do p <- np_percentile t 98;
  do x <- qdiv p (qz (fold_right Z.add 0%Z n_br));
  Ok (round1 x).
