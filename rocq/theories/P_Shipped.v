(** C77: the models shipped with a coefficient table never give less heat than they draw. *)
From Verif Require Import Prelude M_Building L_Building M_Heater S_Heater L_Heater M_Engine S_Engine D_Models S_Shipped L_Shipped P_Engine3.
Open Scope Q_scope.

(** Every shipped table passes the checker. *)
Lemma shipped_tables_good : forall pk code e l,
  In (code, e) (shipped pk) -> tabulated e l -> table_good l = true /\ (2 <= length l)%nat.
Proof.
  intros pk code e l I [E1 E2].
  assert (C : forallb (fun ce => match re_pkl (snd ce), re_perfmap (snd ce) with
                                 | None, Some t => (table_good t && (2 <=? length t)%nat)%bool
                                 | _, _ => true end) (shipped pk) = true) by (vm_compute; reflexivity).
  rewrite forallb_forall in C. specialize (C _ I). cbn [snd] in C. rewrite E1, E2 in C.
  apply andb_true_iff in C. destruct C as [C1 C2]. split; [exact C1|]. apply Nat.leb_le, C2.
Qed.

Lemma in_dict (r : registry) code e : NoDup (map fst r) -> In (code, e) r -> dict_get r code = Some e.
Proof.
  induction r as [|[k v] r IH]; intros N I; [contradiction|].
  cbn [map fst] in N. inversion N as [|? ? N1 N2]; subst. cbn [dict_get].
  destruct I as [J|J].
  - injection J as -> ->. rewrite String.eqb_refl. reflexivity.
  - destruct (String.eqb code k) eqn:E; [|exact (IH N2 J)].
    exfalso. apply String.eqb_eq in E. subst k. apply N1.
    exact (in_map fst _ _ J).
Qed.

(** Each such model can be built and answers for every outdoor temperature up to 114 F and ordinary
    water, whatever the outlet: it draws power, and delivers at least the heat that power is worth;
    exactly that heat below its coldest rating. *)
Theorem C77_never_below_resistance : forall pk code e l units design nominal oat inlet outlet,
  In (code, e) (shipped pk) -> tabulated e l -> (1 <= units)%Z -> ordinary_water design ->
  (forall n, nominal = Some n -> 0 < n) -> ordinary_water (inlet_used design inlet) -> oat <= 114 ->
  exists pm kw cap, pm_from_model (shipped pk) code units design nominal = Ok pm /\
    pm_power pm (Some oat) outlet inlet = Ok (Some kw) /\
    pm_capacity pm (Some oat) outlet inlet = Ok (Some cap) /\
    0 < kw /\ kw * w_to_kbtuh <= cap /\
    (forall t, coldest_rating l t -> oat < t -> cap == kw * w_to_kbtuh).
Proof.
  intros pk code e l units design nominal oat inlet outlet I TB U [D1 D2] N [X1 X2] HO.
  destruct (shipped_tables_good _ _ _ _ I TB) as [G L2].
  destruct (C54_shipped pk) as (_ & ND & _).
  set (m := mkHpMap l units (ends_with code "MP") nominal design).
  destruct (good_map_runs m oat inlet outlet G L2 U D1 D2 N X1 X2 HO) as (kw & cap & P1 & P2 & P3 & P4 & P5).
  exists (PmHpwhsim m), kw, cap. split.
  { unfold pm_from_model. rewrite (in_dict _ _ _ ND I). destruct TB as [-> ->]. reflexivity. }
  cbn [pm_power pm_capacity]. rewrite P1, P2. cbn [bind].
  split; [reflexivity|]. split; [reflexivity|]. split; [exact P3|]. split; [exact P4|].
  intros t (e0 & r & EL & ->) B. exact (P5 e0 r EL B).
Qed.
Print Assumptions C77_never_below_resistance.

(** So the capacity query answers, with a positive number, for each of them. *)
Theorem C77_query_positive : forall pk code e l oat inlet outlet n as_kw derate,
  In (code, e) (shipped pk) -> tabulated e l -> (1 <= n)%Z -> 0 <= derate -> derate < 1 ->
  ordinary_water inlet -> oat <= 114 ->
  exists y, output_capacity (shipped pk) code oat inlet outlet n as_kw derate = Ok y /\ 0 < y.
Proof.
  intros pk code e l oat inlet outlet n as_kw derate I TB HN D0 D1 W HO.
  destruct (C77_never_below_resistance pk code e l 1 50 None oat (Some inlet) outlet I TB) as (pm & kw & cap & E & _ & C & KP & KC & _);
    [lia|split; discriminate|discriminate|exact W|exact HO|].
  assert (CP : 0 < cap).
  { eapply Qlt_le_trans; [|exact KC]. apply qmul_pos; [exact KP|reflexivity]. }
  assert (NP : 0 < qz n).
  { unfold qz. change 0 with (inject_Z 0). rewrite <- Zlt_Qlt. lia. }
  assert (YP : 0 < cap * (qz n * (1 - derate))) by (apply qmul_pos; [exact CP|apply qmul_pos; lra]).
  unfold output_capacity.
  assert (B1 : Qle_bool 0 derate = true) by (apply Qle_bool_iff; exact D0).
  assert (B2 : Qle_bool derate 1 = true) by (apply Qle_bool_iff; lra).
  rewrite B1, B2. cbn [andb negb].
  destruct (n <? 1)%Z eqn:B3; [apply Z.ltb_lt in B3; lia|].
  rewrite E. cbn [bind]. rewrite C. cbn [bind].
  eexists. split; [reflexivity|]. destruct as_kw; [|exact YP].
  apply qdiv_pos; [exact YP|reflexivity].
Qed.
Print Assumptions C77_query_positive.

(** Forty of the 126 shipped models are rated by a table alone. *)
Theorem C77_forty : forall pk,
  length (filter (fun ce => match re_pkl (snd ce), re_perfmap (snd ce) with None, Some _ => true | _, _ => false end) (shipped pk)) = 40%nat.
Proof. intro pk. vm_compute. reflexivity. Qed.
Print Assumptions C77_forty.

Example C77_case : forall pk, exists l, In ("MODELS_SANCO2_43_R_SP"%string, mkEntry (Some "SANCO2 43 gallon CO2 external heat pump"%string) false false 0 None (Some l)) (shipped pk) /\
  tabulated (mkEntry (Some "SANCO2 43 gallon CO2 external heat pump"%string) false false 0 None (Some l)) l /\
  coldest_rating l 17 /\ ordinary_water 145 /\ inlet_used 50 None = 50.
Proof.
  intro pk. exists table_29. split; [|split; [split; reflexivity|split; [do 2 eexists; split; reflexivity|split; [split; discriminate|reflexivity]]]].
  assert (H : dict_get (shipped pk) "MODELS_SANCO2_43_R_SP" =
    Some (mkEntry (Some "SANCO2 43 gallon CO2 external heat pump"%string) false false 0 None (Some table_29))) by reflexivity.
  revert H. generalize (shipped pk). induction r as [|[k v] r IH]; cbn [dict_get]; [discriminate|].
  destruct (String.eqb _ k) eqn:E; intro H; [apply String.eqb_eq in E; subst k; injection H as ->; left; reflexivity|right; exact (IH H)].
Qed.
Print Assumptions C77_case.

(** Beyond 114 F the tables are continued in a straight line, and the claim fails: a SANCO2 with
    145 F water and 120 F air is credited with less heat than it draws. *)
Theorem C77_hot_air_refuted : forall pk, exists pm kw cap,
  pm_from_model (shipped pk) "MODELS_SANCO2_43_R_SP" 1 50 None = Ok pm /\
  pm_power pm (Some 120) 150 (Some 145) = Ok (Some kw) /\ pm_capacity pm (Some 120) 150 (Some 145) = Ok (Some cap) /\
  0 < kw /\ cap < kw * w_to_kbtuh.
Proof.
  intro pk. eexists _, _, _. split; [reflexivity|]. split; [vm_compute; reflexivity|]. split; [vm_compute; reflexivity|].
  split; reflexivity.
Qed.
Print Assumptions C77_hot_air_refuted.
