(** C53: for the shipped equipment the capacity query answers exactly when its arguments are valid. *)
From Verif Require Import Prelude M_Building L_Building M_Heater S_Heater L_Heater M_SimRun M_Step S_Step M_Engine S_Engine L_Engine L_Engine2 D_Models S_Shipped L_Shipped P_Engine3 P_Shipped P_ShippedRun P_Pickled.
Open Scope Q_scope.

Definition from_files (pk : string -> pk_files) (e : reg_entry) : Prop :=
  match re_pkl e with Some f => exists name, f = pk name | None => re_perfmap e <> None end.

Lemma shipped_from pk : Forall (fun ce => from_files pk (snd ce)) (shipped pk).
Proof. unfold shipped. repeat (apply Forall_cons; [cbn; first [eexists; reflexivity|discriminate]|]). apply Forall_nil. Qed.

Lemma dict_get_in {A} (r : list (string * A)) k v : dict_get r k = Some v -> In (k, v) r.
Proof.
  induction r as [|[k0 v0] r IH]; cbn [dict_get]; [discriminate|].
  destruct (String.eqb k k0) eqn:E; intro H; [apply String.eqb_eq in E; subst k; injection H as ->; left; reflexivity|right; exact (IH H)].
Qed.

(** With pickled files on complete grids: the model is listed, there is at least one unit and the derate is a fraction. *)
Theorem C53_answers_exactly : forall pk model oat inlet outlet n as_kw derate,
  (forall name, gridded (pf_oats (pk name)) (pf_grid (pk name))) ->
  (exists y, output_capacity (shipped pk) model oat inlet outlet n as_kw derate = Ok y) <->
  (In model (map fst (shipped pk)) /\ (1 <= n)%Z /\ 0 <= derate /\ derate <= 1).
Proof.
  intros pk model oat inlet outlet n as_kw derate GR. split.
  - intros (y & H). unfold output_capacity in H. destruct (Qle_bool 0 derate && Qle_bool derate 1)%bool eqn:ED; [|discriminate]. cbn [negb] in H.
    apply andb_true_iff in ED. destruct ED as [D1 D2]. qbool. destruct (n <? 1)%Z eqn:EN; [discriminate|]. apply Z.ltb_ge in EN.
    destruct (bind_ok _ _ _ H) as (pm & EP & _). split; [|split; [exact EN|split; assumption]].
    unfold pm_from_model in EP. destruct (dict_get (shipped pk) model) as [en|] eqn:EG; [|discriminate]. exact (in_map fst _ _ (dict_get_in _ _ _ EG)).
  - intros (I & N & D1 & D2). apply in_map_iff in I. destruct I as ([code en] & EM & I). cbn in EM. subst code.
    pose proof (shipped_from pk) as FA. rewrite Forall_forall in FA. specialize (FA _ I). cbn [snd] in FA. unfold from_files in FA.
    destruct (C54_shipped pk) as (_ & ND & _). unfold output_capacity.
    replace (Qle_bool 0 derate && Qle_bool derate 1)%bool with true by (symmetry; apply andb_true_iff; split; apply Qle_bool_iff; assumption). cbn [negb].
    replace (n <? 1)%Z with false by (symmetry; apply Z.ltb_ge; exact N). unfold pm_from_model. rewrite (in_dict _ _ _ ND I).
    destruct (re_pkl en) as [f|] eqn:EP.
    + destruct FA as (name & ->). cbn [bind pm_capacity].
      match goal with |- context[pk_capacity ?m _ _ _] => destruct (C34_always_answers m oat (Some inlet) outlet (GR name) (or_introl eq_refl)) as (kw & cap & _ & ->) end.
      cbn [bind]. eexists. reflexivity.
    + destruct (re_perfmap en) as [l|] eqn:EL; [|exfalso; apply FA; reflexivity]. destruct (shipped_tables_good _ _ _ _ I (conj EP EL)) as [G L2]. cbn [bind pm_capacity].
      match goal with |- context[hp_capacity ?m _ _ _] => destruct (table_answers m oat (Some inlet) outlet (table_good_ok _ G L2) eq_refl) as (kw & cap & _ & ->) end.
      cbn [bind]. eexists. reflexivity.
Qed.
Print Assumptions C53_answers_exactly.

(** With honest pickled files too, in air up to 114 F and ordinary water the answer is not negative. *)
Theorem C53_not_negative : forall pk model oat inlet outlet n as_kw derate y,
  (forall name, gridded (pf_oats (pk name)) (pf_grid (pk name)) /\ honest (pk name)) -> oat <= 114 -> ordinary_water inlet ->
  output_capacity (shipped pk) model oat inlet outlet n as_kw derate = Ok y -> 0 <= y.
Proof.
  intros pk model oat inlet outlet n as_kw derate y GH OA [W1 W2] H.
  unfold output_capacity in H. destruct (Qle_bool 0 derate && Qle_bool derate 1)%bool eqn:ED; [|discriminate]. cbn [negb] in H.
  apply andb_true_iff in ED. destruct ED as [D1 D2]. qbool. destruct (n <? 1)%Z eqn:EN; [discriminate|]. apply Z.ltb_ge in EN.
  destruct (bind_ok _ _ _ H) as (pm & EP & H1). clear H. destruct (bind_ok _ _ _ H1) as ([x|] & EC & H2); [|discriminate]. clear H1.
  assert (X : 0 <= x).
  { unfold pm_from_model in EP. destruct (dict_get (shipped pk) model) as [en|] eqn:EG; [|discriminate]. pose proof (dict_get_in _ _ _ EG) as I.
    pose proof (shipped_from pk) as FA. rewrite Forall_forall in FA. specialize (FA _ I). cbn [snd] in FA. unfold from_files in FA.
    destruct (re_pkl en) as [f|] eqn:EF.
    - destruct FA as (name & ->). apply ok_inj in EP. subst pm. cbn [pm_capacity] in EC. destruct (GH name) as [GR (HF1 & HF2 & HF3 & HF4)].
      match type of EC with context[pk_capacity ?m _ _ _] => destruct (C34_always_answers m oat (Some inlet) outlet GR (or_introl eq_refl)) as (kw & cap & P1 & P2);
        pose proof (C34_never_short m (Some oat) (Some inlet) outlet kw cap HF1 HF2 HF3 HF4 eq_refl ltac:(cbn; lia) P1 P2) as P3 end.
      rewrite P2 in EC. cbn [bind] in EC. apply ok_inj in EC. injection EC as <-. lra.
    - destruct (re_perfmap en) as [l|] eqn:EL; [|discriminate]. apply ok_inj in EP. subst pm. cbn [pm_capacity] in EC. destruct (shipped_tables_good _ _ _ _ I (conj EF EL)) as [G L2].
      match type of EC with context[hp_capacity ?m _ _ _] => destruct (good_map_runs m oat (Some inlet) outlet) as (kw & cap & P1 & P2 & P3 & P4 & _);
        [exact G|exact L2|discriminate|cbn; lra|cbn; lra|discriminate|exact W1|exact W2|exact OA|] end.
      rewrite P2 in EC. cbn [bind] in EC. apply ok_inj in EC. injection EC as <-. unfold w_to_kbtuh in P4. lra. }
  assert (NQ : 0 <= qz n) by (unfold qz, inject_Z, Qle; cbn; lia).
  assert (Y : 0 <= x * (qz n * (1 - derate))) by (repeat apply qmul_nonneg; lra).
  apply ok_inj in H2. subst y. destruct as_kw; [apply Qle_shift_div_l; lra|exact Y].
Qed.
Print Assumptions C53_not_negative.

Lemma listed m l : existsb (String.eqb m) l = true -> In m l.
Proof. intro H. apply existsb_exists in H. destruct H as (x & I & E). apply String.eqb_eq in E. subst x. exact I. Qed.

(** A case: files on a complete grid for every pickled model, and a model of each kind. *)
Example C53_answers_exactly_case : forall f, gridded (pf_oats f) (pf_grid f) -> forall oat inlet outlet, exists y z,
  output_capacity (shipped (fun _ => f)) "MODELS_ColmacCxA_10_VFD_45_Hz_C_SP" oat inlet outlet 3 true (1 # 10) = Ok y /\
  output_capacity (shipped (fun _ => f)) "MODELS_SANCO2_43_R_SP" oat inlet outlet 3 false 1 = Ok z.
Proof.
  intros f G oat inlet outlet.
  destruct (proj2 (C53_answers_exactly (fun _ => f) "MODELS_ColmacCxA_10_VFD_45_Hz_C_SP" oat inlet outlet 3 true (1 # 10) (fun _ => G))) as (y & Y).
  { split; [apply listed; reflexivity|]. split; [discriminate|]. split; discriminate. }
  destruct (proj2 (C53_answers_exactly (fun _ => f) "MODELS_SANCO2_43_R_SP" oat inlet outlet 3 false 1 (fun _ => G))) as (z & Z0).
  { split; [apply listed; reflexivity|]. split; [discriminate|]. split; discriminate. }
  exists y, z. split; assumption.
Qed.

Example C53_not_negative_case : exists f y, (gridded (pf_oats f) (pf_grid f) /\ honest f) /\ ordinary_water 50 /\
  output_capacity (shipped (fun _ => f)) "MODELS_ColmacCxA_10_VFD_45_Hz_C_SP" 60 50 140 3 false (1 # 10) = Ok y /\ 0 < y.
Proof.
  exists (mkPkFiles (fun _ => Some 12) (fun _ => Some 4) [20; 100] [[(40, [120; 140])]; []] 120 20 5 8). eexists.
  split; [|split; [split; discriminate|split; [vm_compute; reflexivity|reflexivity]]].
  split; [split; [discriminate|]; split; [reflexivity|]; cbn; repeat constructor; discriminate|].
  split; [|repeat split; discriminate]. intros a o i E1 E2. injection E1 as <-. injection E2 as <-. split; discriminate.
Qed.
