(** C34: pickled maps answer under every condition, and give no heat short of the power if their data do not. *)
From Verif Require Import Prelude L_Building M_Heater S_Heater L_Heater M_Engine S_Shipped.
Open Scope Q_scope.

Definition unit_ok (m : pk_map) : Prop := pk_nominal m = None \/ pk_units m <> 0%Z.

Lemma er_answers m : unit_ok m -> exists er, pk_er_per_unit m = Ok er.
Proof.
  intros [N|N]; unfold pk_er_per_unit.
  - rewrite N. eexists. reflexivity.
  - destruct (pk_nominal m); [|eexists; reflexivity]. unfold qdiv. destruct (Qeq_bool (qz (pk_units m)) 0) eqn:E; [|eexists; reflexivity].
    exfalso. apply Qeq_bool_iff in E. apply N. unfold qz, inject_Z, Qeq in E. cbn in E. lia.
Qed.

Lemma nth_same_index {A B} (l : list A) (k : list B) i x : length k = length l -> py_nth l i = Ok x -> exists y, py_nth k i = Ok y.
Proof.
  intros E H. unfold py_nth in *. rewrite E. cbv zeta in *.
  match type of H with context[if ?b then _ else _] => destruct b end; [discriminate|].
  match type of H with context[nth_error l ?j] => destruct (nth_error l j) eqn:N; [|discriminate];
    destruct (nth_error k j) eqn:N2; [eexists; reflexivity|]; exfalso;
    apply nth_error_None in N2; assert (X : nth_error l j <> None) by congruence; apply nth_error_Some in X; lia end.
Qed.

Lemma closest_answers m inl out oat : gridded (pk_oats m) (pk_grid m) -> exists r, pk_force_closest m inl out oat = Ok r.
Proof.
  intros (N & EL & FG). unfold pk_force_closest. destruct (c34_oat m oat N) as (oi & soat & E1 & E2 & _). rewrite E1. cbn [bind].
  destruct (nth_same_index _ (pk_grid m) _ _ EL E2) as (es & E3).
  destruct es as [|e0 er].
  { unfold pk_idx_nearest_inlet. rewrite E3. cbn [bind]. eexists. reflexivity. }
  destruct (c34_inlet m oi inl (e0 :: er) E3 ltac:(discriminate)) as (ii & e & E4 & E5 & _). rewrite E4, E2. cbn [bind]. rewrite E3. cbn [bind]. rewrite E5. cbn [bind]. cbv zeta.
  destruct (pk_raw m (fst e) out soat); [eexists; reflexivity|].
  assert (NS : snd e <> []) by (rewrite Forall_forall in FG; pose proof (FG _ (py_nth_in _ _ _ E3)) as F2; rewrite Forall_forall in F2; exact (F2 _ (py_nth_in _ _ _ E5))).
  destruct (pk_oats m) as [|o0 ro] eqn:EO; [congruence|].
  destruct (c34_outlet m oi ii out _ e o0 ro E3 E5 NS EO) as (x & E6 & _). rewrite E6. cbn [bind].
  destruct (pk_raw m (fst e) x soat) as [[o i]|]; [|eexists; reflexivity]. destruct (qltb x out && qltb (fst e) out)%bool; eexists; reflexivity.
Qed.

(** A query of a pickled map with a known outdoor temperature always answers, inside and outside the tabulated range,
    whatever the interpolators leave out; so does every query of capacity and power. *)
Theorem C34_always_answers : forall m oat inl out, gridded (pk_oats m) (pk_grid m) -> pk_nominal m = None \/ pk_units m <> 0%Z ->
  exists kw cap, pk_power m (Some oat) out inl = Ok kw /\ pk_capacity m (Some oat) out inl = Ok cap.
Proof.
  intros m oat inl out G U. unfold pk_power, pk_capacity. destruct (pk_resolve m out inl) as [i o].
  assert (A : exists p, pk_per_unit m (Some oat) i o = Ok p).
  { unfold pk_per_unit. pose proof G as (N & _). unfold pk_oat_max, pk_oat_min. rewrite (py_nth_last (pk_oats m) 0 N). cbn [bind].
    destruct (Qle_bool (last (pk_oats m) 0) oat); [eexists; reflexivity|]. destruct (pk_raw m i o oat); [eexists; reflexivity|].
    destruct (er_answers m U) as (er & ->). destruct (closest_answers m i o oat G) as (r & ->).
    destruct (pk_oats m) as [|o0 ro] eqn:EO; [congruence|]. change (py_nth (o0 :: ro) 0) with (Ok o0). cbn [bind].
    destruct (qltb oat o0); [eexists; reflexivity|]. destruct r; eexists; reflexivity. }
  destruct A as (p & ->). cbn [bind]. eexists _, _. split; reflexivity.
Qed.
Print Assumptions C34_always_answers.

Definition honest_map (m : pk_map) : Prop :=
  (forall a o i, pk_out_interp m a = Some o -> pk_in_interp m a = Some i -> 0 <= i /\ i <= o) /\
  0 <= pk_in_high m /\ pk_in_high m <= pk_out_high m /\ 0 <= pk_out_low m.

Lemma raw_honest m i o t x y : honest_map m -> pk_raw m i o t = Some (x, y) -> 0 <= y /\ y <= x.
Proof.
  intros (H & _). unfold pk_raw. cbv zeta. destruct (pk_out_interp m _) eqn:E1; [|discriminate]. destruct (pk_in_interp m _) eqn:E2; [|discriminate].
  intro K. injection K as <- <-. exact (H _ _ _ E1 E2).
Qed.

Lemma closest_honest m inl out oat x y : honest_map m -> pk_force_closest m inl out oat = Ok (Some (x, y)) -> 0 <= y /\ y <= x.
Proof.
  intros HM. unfold pk_force_closest. intro E. destruct (bind_ok _ _ _ E) as (oi & _ & E1). clear E. destruct (pk_idx_nearest_inlet m oi inl) as [ii|]; [|discriminate].
  destruct (bind_ok _ _ _ E1) as (soat & _ & E2). destruct (bind_ok _ _ _ E2) as (es & _ & E3). destruct (bind_ok _ _ _ E3) as (e & _ & E4). cbv zeta in E4. clear E1 E2 E3.
  destruct (pk_raw m (fst e) out soat) as [[a b]|] eqn:ER; [apply ok_inj in E4; injection E4 as <- <-; exact (raw_honest _ _ _ _ _ _ HM ER)|].
  destruct (bind_ok _ _ _ E4) as (sout & _ & E5). destruct (pk_raw m (fst e) sout soat) as [[a b]|] eqn:ER2; [|discriminate].
  destruct (raw_honest _ _ _ _ _ _ HM ER2) as [B1 B2]. destruct (qltb sout out && qltb (fst e) out)%bool eqn:EC; apply ok_inj in E5; injection E5 as <- <-; [|split; assumption].
  apply andb_true_iff in EC. destruct EC as [C1 C2]. qbool.
  assert (A : 0 <= a * (out - fst e - (sout - fst e)) / (out - fst e)).
  { apply Qle_shift_div_l; [lra|]. assert (0 <= a * (out - fst e - (sout - fst e))) by (apply qmul_nonneg; lra). lra. }
  split; lra.
Qed.

(** If the files claim no heat short of the power, no answer does, not even where the map is snapped to its grid, scaled
    to a hotter outlet or given up: for any number of units, the heat is at least what the power is worth. *)
Theorem C34_never_short : forall m oat inl out kw cap,
  (forall a o i, pk_out_interp m a = Some o -> pk_in_interp m a = Some i -> 0 <= i /\ i <= o) ->
  0 <= pk_in_high m -> pk_in_high m <= pk_out_high m -> 0 <= pk_out_low m -> pk_nominal m = None -> (0 <= pk_units m)%Z ->
  pk_power m oat out inl = Ok kw -> pk_capacity m oat out inl = Ok cap -> 0 <= kw /\ (3412142 # 1000000) * kw <= cap.
Proof.
  intros m oat inl out kw cap H1 H2 H3 H4 NN NU. pose proof (conj H1 (conj H2 (conj H3 H4)) : honest_map m) as HM.
  unfold pk_power, pk_capacity. destruct (pk_resolve m out inl) as [i o]. intros EP EC.
  destruct (bind_ok _ _ _ EP) as ([x y] & EU & EP2). rewrite EU in EC. cbn [bind] in EC. apply ok_inj in EP2, EC. cbn [fst snd] in *. clear EP.
  assert (A : 0 <= y /\ y <= x).
  { unfold pk_per_unit in EU. destruct oat as [oat|]; [|discriminate]. destruct (bind_ok _ _ _ EU) as (omax & _ & E1). clear EU.
    destruct (Qle_bool omax oat); [apply ok_inj in E1; injection E1 as <- <-; split; assumption|].
    destruct (pk_raw m i o oat) as [[a b]|] eqn:ER; [apply ok_inj in E1; injection E1 as <- <-; exact (raw_honest _ _ _ _ _ _ HM ER)|].
    unfold pk_er_per_unit in E1. rewrite NN in E1. destruct (bind_ok _ _ _ E1) as (omin & _ & E2). cbn [bind] in E2.
    destruct (qltb oat omin); [apply ok_inj in E2; injection E2 as <- <-; split; lra|]. destruct (bind_ok _ _ _ E2) as ([[a b]|] & E3 & E4); apply ok_inj in E4; injection E4 as <- <-.
    - exact (closest_honest _ _ _ _ _ _ HM E3).
    - split; [apply Qle_shift_div_l; lra|apply Qle_shift_div_r; lra]. }
  assert (U0 : 0 <= qz (pk_units m)) by (unfold qz, inject_Z, Qle; cbn; lia).
  subst kw cap. unfold w_to_kbtuh. pose proof (qmul_nonneg y (qz (pk_units m)) (proj1 A) U0). pose proof (qmul_nonneg (x - y) (qz (pk_units m)) ltac:(lra) U0).
  assert (Z : (x - y) * qz (pk_units m) == x * qz (pk_units m) - y * qz (pk_units m)) by ring. split; lra.
Qed.
Print Assumptions C34_never_short.

(** A case: two units over a grid with an empty row and interpolators with gaps; 30 F outdoors with 50 F water is
    answered at the tabulated 20 F and 80 F. *)
Example C34_always_answers_case : exists m kw cap, gridded (pk_oats m) (pk_grid m) /\ pk_nominal m = None /\ pk_raw m 50 140 30 = None /\
  pk_power m (Some 30) 140 (Some 50) = Ok kw /\ pk_capacity m (Some 30) 140 (Some 50) = Ok cap /\ 0 < kw /\ (3412142 # 1000000) * kw <= cap.
Proof.
  exists (mkPkMap (fun a => match a with i :: _ => if Qeq_bool i 80 then Some 12 else None | _ => None end)
                  (fun a => match a with i :: _ => if Qeq_bool i 80 then Some 4 else None | _ => None end)
                  [20; 60; 100] [[(40, [120; 140]); (80, [120; 140])]; [(80, [120; 140])]; []] 120 20 5 8 2 false false 0 None 50).
  eexists _, _. split; [split; [discriminate|]; split; [reflexivity|]; cbn; repeat constructor; discriminate|]. split; [reflexivity|]. split; [reflexivity|].
  split; [vm_compute; reflexivity|]. split; [vm_compute; reflexivity|]. split; [reflexivity|discriminate].
Qed.
