(** C53 and C54: the capacity query and the model listing. *)
From Coq Require Import Ascii.
From Verif Require Import Prelude M_Building L_Building M_Heater S_Heater L_Heater M_Step L_Step M_Engine S_Engine L_Engine4 D_Models.
Open Scope Q_scope.

(** ** C53 Model-capacity query *)

(** The answer is the capacity of a bank of [n] such units under the same conditions, less the derate;
    in kW at 3.41214 kBtu/h per kW. *)
Theorem C53_formula : forall reg model oat inlet outlet n as_kw derate pm c,
  0 <= derate <= 1 -> (1 <= n)%Z ->
  pm_from_model reg model n 50 None = Ok pm -> pm_capacity pm (Some oat) outlet (Some inlet) = Ok (Some c) ->
  exists y, output_capacity reg model oat inlet outlet n as_kw derate = Ok y /\
    y * (if as_kw then 341214 # 100000 else 1) == c * (1 - derate).
Proof.
  intros reg model oat inlet outlet n as_kw derate pm c [D1 D2] N EP EC.
  destruct (model_units _ _ _ _ _ _ _ _ _ N EP EC) as (pm1 & x & E1 & E2 & E3). unfold output_capacity.
  rewrite (proj2 (Qle_bool_iff 0 derate) D1), (proj2 (Qle_bool_iff derate 1) D2). cbn [andb negb].
  replace (n <? 1)%Z with false by (symmetry; apply Z.ltb_ge; exact N). rewrite E1. cbn [bind]. rewrite E2. cbn [bind]. cbv zeta.
  eexists. split; [reflexivity|]. destruct as_kw; rewrite E3; field.
Qed.
Print Assumptions C53_formula.

(** A model with measured data answers from its two tables: below its warmest rating, the heat and power measured
    at the inlet (raised by the heat exchanger, and never above the warmest measured one), the outdoor temperature
    and, unless the model was measured without regard to it, the outlet temperature, for each unit. *)
Theorem C53_measured : forall reg model e f units design nominal oat inlet outlet top heat power,
  dict_get reg model = Some e -> re_pkl e = Some f -> py_nth (pf_oats f) (-1) = Ok top -> oat < top ->
  let raised x := if re_hx e then x + re_hx_increase e else x in
  let i := qmin (raised inlet) (pf_inlet_max f) in
  (outlet_free model -> pf_out f [i; oat] = Some heat /\ pf_in f [i; oat] = Some power) ->
  (~ outlet_free model -> pf_out f [i; raised outlet; oat] = Some heat /\ pf_in f [i; raised outlet; oat] = Some power) ->
  exists pm, pm_from_model reg model units design nominal = Ok pm /\
    pm_capacity pm (Some oat) outlet (Some inlet) = Ok (Some (heat * qz units * w_to_kbtuh)) /\
    pm_power pm (Some oat) outlet (Some inlet) = Ok (Some (power * qz units)).
Proof.
  intros reg model e f units design nominal oat inlet outlet top heat power ER EF ET LT raised i H1 H2.
  unfold pm_from_model. rewrite ER, EF. cbv zeta.
  set (two := (mem model two_input_names || ends_with model "MP" || contains model "Lochinvar")%bool).
  assert (TW : two = true <-> outlet_free model).
  { unfold two, outlet_free. rewrite !orb_true_iff, mem_in, ends_with_spec, contains_spec by discriminate. unfold two_input_names. tauto. }
  eexists. split; [reflexivity|]. cbn [pm_capacity pm_power]. unfold pk_capacity, pk_power.
  set (m := mkPkMap _ _ _ _ _ _ _ _ _ _ _ _ _ _).
  assert (R : pk_resolve m outlet (Some inlet) = (i, raised outlet)).
  { unfold pk_resolve, m, i, raised. cbn [pk_hx pk_hx_increase pk_inlet_max]. destruct (re_hx e); reflexivity. }
  rewrite R.
  assert (Q0 : pk_raw m i (raised outlet) oat = Some (heat, power)).
  { unfold pk_raw, m. cbn [pk_two_input pk_out_interp pk_in_interp]. destruct two eqn:T2.
    - destruct (H1 (proj1 TW eq_refl)) as [-> ->]. reflexivity.
    - destruct H2 as [-> ->]; [|reflexivity]. intro H. apply TW in H. discriminate. }
  unfold pk_per_unit, pk_oat_max. change (pk_oats m) with (pf_oats f). rewrite ET. cbn [bind].
  destruct (Qle_bool top oat) eqn:B; [qbool; lra|]. rewrite Q0. cbn [bind fst snd]. split; reflexivity.
Qed.
Print Assumptions C53_measured.

(** The outlet temperature counts for some shipped models and not for others. *)
Example C53_measured_case :
  outlet_free "MODELS_Lochinvar_AHP60_C_SP" /\ outlet_free "MODELS_NyleC185A_C_MP" /\ ~ outlet_free "MODELS_NyleC185A_C_SP".
Proof.
  split; [right; right; apply contains_spec; [discriminate|reflexivity]|].
  split; [right; left; apply ends_with_spec; reflexivity|].
  intros [H|[H|H]].
  - apply mem_in in H. discriminate.
  - apply ends_with_spec in H. discriminate.
  - apply contains_spec in H; discriminate.
Qed.
Print Assumptions C53_measured_case.

(** Every answer arises that way. *)
Theorem C53_answer : forall reg model oat inlet outlet n as_kw derate y,
  output_capacity reg model oat inlet outlet n as_kw derate = Ok y ->
  0 <= derate <= 1 /\ (1 <= n)%Z /\ exists pm c, pm_from_model reg model 1 50 None = Ok pm /\
    pm_capacity pm (Some oat) outlet (Some inlet) = Ok (Some c) /\
    y * (if as_kw then 341214 # 100000 else 1) == qz n * c * (1 - derate).
Proof.
  intros reg model oat inlet outlet n as_kw derate y H. unfold output_capacity in H.
  destruct (Qle_bool 0 derate) eqn:Q1; [|discriminate]. destruct (Qle_bool derate 1) eqn:Q2; [|discriminate]. cbn [andb negb] in H.
  destruct (n <? 1)%Z eqn:EN; [discriminate|]. apply Z.ltb_ge in EN. qbool. split; [auto|]. split; [exact EN|].
  destruct (bind_ok _ _ _ H) as (pm & E1 & H1). destruct (bind_ok _ _ _ H1) as ([c|] & E2 & H2); [|discriminate]. cbv zeta in H2.
  exists pm, c. split; [exact E1|]. split; [exact E2|]. apply ok_inj in H2. subst y. destruct as_kw; field.
Qed.
Print Assumptions C53_answer.

(** Invalid derates and counts, and unknown models, are refused with ValueError. *)
Theorem C53_rejects : forall reg model oat inlet outlet n as_kw derate,
  derate < 0 \/ 1 < derate \/ (n < 1)%Z \/ dict_get reg model = None ->
  output_capacity reg model oat inlet outlet n as_kw derate = Err ValueError.
Proof.
  intros reg model oat inlet outlet n as_kw derate H. unfold output_capacity.
  destruct (Qle_bool 0 derate) eqn:Q1; [|reflexivity]. destruct (Qle_bool derate 1) eqn:Q2; [|reflexivity]. cbn [andb negb]. qbool.
  destruct (n <? 1)%Z eqn:EN; [reflexivity|]. apply Z.ltb_ge in EN. destruct H as [H|[H|[H|H]]]; [lra|lra|lia|].
  unfold pm_from_model. rewrite H. reflexivity.
Qed.
Print Assumptions C53_rejects.

(** Full derate gives nothing, and a smaller derate never gives less of a capacity that is not negative. *)
Theorem C53_derate : forall reg model oat inlet outlet n as_kw d d' y y',
  output_capacity reg model oat inlet outlet n as_kw d = Ok y -> output_capacity reg model oat inlet outlet n as_kw d' = Ok y' ->
  (d == 1 -> y == 0) /\ (d <= d' -> 0 <= y -> y' <= y).
Proof.
  intros reg model oat inlet outlet n as_kw d d' y y' H H'.
  destruct (C53_answer _ _ _ _ _ _ _ _ _ H) as ([A1 A2] & N & pm & c & E1 & E2 & E3).
  destruct (C53_answer _ _ _ _ _ _ _ _ _ H') as ([A1' A2'] & _ & pm' & c' & E1' & E2' & E3').
  assert (pm' = pm) by congruence. subst pm'. assert (c' = c) by congruence. subst c'.
  set (k := if as_kw then 341214 # 100000 else 1) in *. assert (K : 0 < k) by (unfold k; destruct as_kw; reflexivity).
  set (g := qz n * c) in *. clearbody k g. clear - A1 A2 A1' A2' E3 E3' K. split.
  - intro D1. assert (E : y * k == 0) by (rewrite E3; nra). apply Qmult_integral in E. destruct E; [assumption|lra].
  - intros LD Y. assert (G : d == 1 \/ 0 <= g).
    { destruct (Qlt_le_dec d 1); [right|left; lra]. destruct (Qlt_le_dec g 0); [|assumption]. exfalso. nra. }
    assert (E : y' * k <= y * k).
    { rewrite E3, E3'. destruct G as [G|G]; [|nra]. assert (d' == 1) by lra. nra. }
    apply Qmult_lt_0_le_reg_r in E; [exact E|exact K].
Qed.
Print Assumptions C53_derate.

(** Three shipped heaters, quarter derate. *)
Example C53_case : forall pk, exists y, output_capacity (shipped pk) "MODELS_AOSmithHPTS50_R_MP" 60 50 120 3 false (1 # 4) = Ok y /\ 10 < y < 15.
Proof. intro pk. eexists. split; [vm_compute; reflexivity|]. split; reflexivity. Qed.
Print Assumptions C53_case.

(** ** C54 Model listing partitions the database *)

(** What is listed: exactly the models that pass the filters, with their names. *)
Theorem C54_members : forall reg multi_pass residential exclude sgip_only l,
  list_models reg multi_pass residential exclude sgip_only = Ok l ->
  forall code name, In (code, name) l <->
    exists e, In (code, e) reg /\ re_name e = Some name /\ suitable residential sgip_only exclude code e /\
      (multi_pass = true <-> ends code "_MP").
Proof. intros. exact (proj1 (list_spec _ _ _ _ _ _ H) code name). Qed.
Print Assumptions C54_members.

(** In database order, each once. *)
Theorem C54_order : forall reg multi_pass residential exclude sgip_only l,
  list_models reg multi_pass residential exclude sgip_only = Ok l ->
  sublist (map fst l) (map fst reg) /\ (NoDup (map fst reg) -> NoDup (map fst l)).
Proof. intros. destruct (list_spec _ _ _ _ _ _ H) as [_ S]. split; [exact S|]. exact (sublist_nodup _ _ S). Qed.
Print Assumptions C54_order.

(** The two listings share no model and together hold exactly the suitable ones. *)
Theorem C54_partition : forall reg residential exclude sgip_only single multi,
  list_models reg false residential exclude sgip_only = Ok single ->
  list_models reg true residential exclude sgip_only = Ok multi ->
  (forall code n n', ~ (In (code, n) single /\ In (code, n') multi)) /\
  (forall code name, In (code, name) single \/ In (code, name) multi <->
     exists e, In (code, e) reg /\ re_name e = Some name /\ suitable residential sgip_only exclude code e).
Proof.
  intros reg residential exclude sgip_only single multi H1 H2. destruct (list_spec _ _ _ _ _ _ H1) as [S _]. destruct (list_spec _ _ _ _ _ _ H2) as [M _]. split.
  - intros code n n' [A B]. apply S in A. apply M in B. destruct A as (e & _ & _ & _ & A). destruct B as (e' & _ & _ & _ & B).
    assert (ends code "_MP") by tauto. apply A in H. discriminate.
  - intros code name. rewrite S, M. split.
    + intros [(e & I & N & G & _)|(e & I & N & G & _)]; exists e; auto.
    + intros (e & I & N & G). destruct (ends_with code "_MP") eqn:E.
      * apply ends_with_spec in E. right. exists e. split; [exact I|]. split; [exact N|]. split; [exact G|]. tauto.
      * left. exists e. split; [exact I|]. split; [exact N|]. split; [exact G|]. split; [discriminate|]. intro C. apply ends_with_spec in C. congruence.
Qed.
Print Assumptions C54_partition.

(** A well-formed database can always be listed. *)
Theorem C54_total : forall reg multi_pass residential exclude sgip_only, well_formed reg ->
  exists l, list_models reg multi_pass residential exclude sgip_only = Ok l.
Proof. intros. apply list_total. assumption. Qed.
Print Assumptions C54_total.

(** The shipped database: well-formed, no code twice, every code says whether it is commercial or
    residential and single- or multi-pass, so "not multi-pass" there means single-pass; and every
    listed model can be loaded. *)
Theorem C54_shipped : forall pk, well_formed (shipped pk) /\ NoDup (map fst (shipped pk)) /\
  length (shipped pk) = 126%nat /\
  (forall code e, In (code, e) (shipped pk) ->
     ends code "_C_SP" \/ ends code "_C_MP" \/ ends code "_R_SP" \/ ends code "_R_MP") /\
  (forall mp res ex sg l code name units d nominal, list_models (shipped pk) mp res ex sg = Ok l -> In (code, name) l ->
     exists pm, pm_from_model (shipped pk) code units d nominal = Ok pm).
Proof.
  intro pk.
  assert (C : forallb (fun ce => ((4 <=? String.length (fst ce))%nat && match re_name (snd ce) with Some _ => true | None => false end &&
     (ends_with (fst ce) "_C_SP" || ends_with (fst ce) "_C_MP" || ends_with (fst ce) "_R_SP" || ends_with (fst ce) "_R_MP") &&
     match re_pkl (snd ce), re_perfmap (snd ce) with None, None => false | _, _ => true end)%bool) (shipped pk) = true) by (vm_compute; reflexivity).
  rewrite forallb_forall in C.
  assert (ND : NoDup (map fst (shipped pk))).
  { assert (B : (fix nd l := match l with [] => true | x :: r => (negb (mem x r) && nd r)%bool end) (map fst (shipped pk)) = true) by (vm_compute; reflexivity).
    revert B. generalize (map fst (shipped pk)). induction l as [|x r IH]; intro B; constructor; apply andb_true_iff in B; destruct B as [B1 B2].
    - intro I. apply mem_in in I. rewrite I in B1. discriminate.
    - exact (IH B2). }
  split; [|split; [exact ND|split; [reflexivity|split]]].
  - intros code e I. specialize (C _ I). cbn [fst snd] in C. apply andb_true_iff in C. destruct C as [C _]. apply andb_true_iff in C. destruct C as [C _].
    apply andb_true_iff in C. destruct C as [C1 C2]. apply Nat.leb_le in C1. split; [exact C1|]. destruct (re_name e); [eauto|discriminate].
  - intros code e I. specialize (C _ I). cbn [fst snd] in C. apply andb_true_iff in C. destruct C as [C _]. apply andb_true_iff in C. destruct C as [_ C].
    rewrite !orb_true_iff, !ends_with_spec in C. tauto.
  - intros mp res ex sg l code name units d nominal HL I. apply (proj1 (list_spec _ _ _ _ _ _ HL)) in I. destruct I as (e & I & _).
    unfold pm_from_model. destruct (dict_get (shipped pk) code) as [e'|] eqn:EG.
    + assert (I' : In (code, e') (shipped pk)).
      { clear - EG. revert EG. generalize (shipped pk). induction r as [|[k v] r IH]; cbn; [discriminate|]. destruct (String.eqb code k) eqn:E.
        - intro H. injection H as ->. apply String.eqb_eq in E. subst k. left. reflexivity.
        - intro H. right. exact (IH H). }
      specialize (C _ I'). cbn [fst snd] in C. apply andb_true_iff in C. destruct C as [_ C]. destruct (re_pkl e'); [eauto|]. destruct (re_perfmap e'); [eauto|discriminate].
    + exfalso. clear - EG I. revert EG I. generalize (shipped pk). induction r as [|[k v] r IH]; cbn; [intros _ []|]. destruct (String.eqb code k) eqn:E; [discriminate|].
      intros H [J|J]; [injection J as -> _; rewrite String.eqb_refl in E; discriminate|exact (IH H J)].
Qed.
Print Assumptions C54_shipped.

(** The default listing of the shipped database is not empty, nor is its multi-pass counterpart. *)
Example C54_case : forall pk, exists l m, list_models (shipped pk) false true [] true = Ok l /\ list_models (shipped pk) true true [] true = Ok m /\
  length l = 24%nat /\ length m = 52%nat.
Proof. intro pk. do 2 eexists. split; [vm_compute; reflexivity|]. split; [vm_compute; reflexivity|]. split; reflexivity. Qed.
Print Assumptions C54_case.
