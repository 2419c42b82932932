(** Lemmas for the engine's plots (C68): swing systems at equal run hours, and multi-pass curves. *)
From Coq Require Import Lia Lqa Setoid.
From Verif Require Import Prelude M_StratifiedTank M_MixedTank M_EnergyTank M_Building M_Heater M_Sizing S_Integral S_Sizing
  M_Step M_Swing S_Swing M_MPRTP M_Engine M_EngineOut S_Engine S_EngineSize S_EngineOut L_Building L_Sizing L_Sizing2 L_Sizing3 L_Sizing4
  P_Sizing P_Sizing2 L_Swing2 L_Swing4 P_Swing2 L_Engine8 P_Engine7 L_Out.
Open Scope Q_scope.

Notation eqs := (Forall2 Qeq).

Lemma eqs_refl l : eqs l l.
Proof. induction l; constructor; auto. reflexivity. Qed.

Lemma eqs_nth l l' i : eqs l l' -> nth i l 0 == nth i l' 0.
Proof. intro H. revert i. induction H; intros [|i]; cbn; try reflexivity; auto. Qed.

Lemma eqs_length l l' : eqs l l' -> length l = length l'.
Proof. induction 1; cbn; auto. Qed.

Lemma qleb_eq a a' b b' : a == a' -> b == b' -> Qle_bool a b = Qle_bool a' b'.
Proof.
  intros A B. destruct (Qle_bool a b) eqn:X, (Qle_bool a' b') eqn:Y; try reflexivity; exfalso.
  - apply Qle_bool_iff in X. rewrite A, B in X. apply Qle_bool_iff in X. congruence.
  - apply Qle_bool_iff in Y. rewrite <- A, <- B in Y. apply Qle_bool_iff in Y. congruence.
Qed.
Lemma qltb_eq a a' b b' : a == a' -> b == b' -> qltb a b = qltb a' b'.
Proof. intros A B. unfold qltb. f_equal. apply qleb_eq; assumption. Qed.

Lemma peak_indices_eq d d' : eqs d d' -> peak_indices d = peak_indices d'.
Proof.
  intro H. unfold peak_indices. rewrite (eqs_length _ _ H). apply filter_ext. intro i. f_equal.
  - apply qleb_eq; [reflexivity|apply eqs_nth; exact H].
  - apply qltb_eq; [apply eqs_nth; exact H|reflexivity].
Qed.

Lemma cumsum_eq l l' a a' : a == a' -> eqs l l' -> eqs (cumsum_from a l) (cumsum_from a' l').
Proof.
  intros A H. revert a a' A. induction H; intros a a' A; cbn [cumsum_from]; constructor.
  - rewrite A, H. reflexivity.
  - apply IHForall2. rewrite A, H. reflexivity.
Qed.

Lemma filter_eqs (f : Q -> bool) l l' : (forall x y, x == y -> f x = f y) -> eqs l l' -> eqs (filter f l) (filter f l').
Proof.
  intros F H. induction H; cbn [filter]; [constructor|]. rewrite (F _ _ H). destruct (f y); [constructor; assumption|assumption].
Qed.

Lemma qmin_eq a a' b b' : a == a' -> b == b' -> qmin a b == qmin a' b'.
Proof. intros A B. destruct (qmin_spec a b) as [[X ->]|[X ->]], (qmin_spec a' b') as [[Y ->]|[Y ->]]; try assumption; lra. Qed.

Lemma qminl_eq l l' x x' : x == x' -> eqs l l' -> qminl x l == qminl x' l'.
Proof.
  intros X H. unfold qminl. revert x x' X. induction H as [|u w r t E F IH]; intros a a' X; cbn [fold_left]; [exact X|].
  apply IH. apply qmin_eq; assumption.
Qed.

Lemma worst_deficit_eq l l' : eqs l l' ->
  match worst_deficit l, worst_deficit l' with Some x, Some y => x == y | None, None => True | _, _ => False end.
Proof.
  intro H. unfold worst_deficit.
  assert (F : eqs (filter (fun x => qltb x 0) l) (filter (fun x => qltb x 0) l')).
  { apply filter_eqs; [|exact H]. intros x y E. apply qltb_eq; [exact E|reflexivity]. }
  inversion F; subst; [exact I|]. assert (Q := qminl_eq _ _ _ _ H2 H3). rewrite Q. reflexivity.
Qed.

Lemma vsub_eq a a' b d : eqs a a' -> vsub a b = Ok d -> exists d', vsub a' b = Ok d' /\ eqs d d'.
Proof.
  intro H. revert b d. induction H as [|x y r t E F IH]; intros [|z b] d; cbn [vsub]; try discriminate.
  - intro X. apply ok_inj in X. subst d. exists []. split; [reflexivity|constructor].
  - intro X. apply bind_ok in X. destruct X as (m & M & X). apply ok_inj in X. subst d.
    destruct (IH _ _ M) as (m' & M' & Q). rewrite M'. cbn [bind]. eexists. split; [reflexivity|]. constructor; [rewrite E; reflexivity|exact Q].
Qed.

Lemma eqs_map (f g : Q -> Q) l l' : (forall x y, x == y -> f x == g y) -> eqs l l' -> eqs (map f l) (map g l').
Proof. intros F H. induction H; cbn [map]; constructor; auto. Qed.
Lemma eqs_app l l' m m' : eqs l l' -> eqs m m' -> eqs (l ++ m) (l' ++ m').
Proof. intros H M. induction H; cbn [app]; [exact M|constructor; assumption]. Qed.
Lemma eqs_repeat x y n : x == y -> eqs (repeat x n) (repeat y n).
Proof. intro E. induction n; cbn; constructor; assumption. Qed.
Lemma eqs_skipn l l' n : eqs l l' -> eqs (skipn n l) (skipn n l').
Proof. intro H. revert n. induction H; intros [|n]; cbn; try constructor; auto. Qed.
Lemma eqs_firstn l l' n : eqs l l' -> eqs (firstn n l) (firstn n l').
Proof. intro H. revert n. induction H; intros [|n]; cbn; try constructor; auto. Qed.
Lemma eqs_minutes l l' : eqs l l' -> eqs (hr_to_min l) (hr_to_min l').
Proof. intro H. unfold hr_to_min. induction H; cbn [flat_map]; [constructor|]. apply eqs_app; [apply eqs_repeat; assumption|assumption]. Qed.

Lemma swing_peak_eq v run run' daily shape i mix o : run == run' -> swing_peak v run daily shape i = Ok (mix, o) ->
  exists o', swing_peak v run' daily shape i = Ok (mix, o') /\
    match o, o' with Some x, Some y => x == y | None, None => True | _, _ => False end.
Proof.
  intros R H. unfold swing_peak in *. apply bind_ok in H. destruct H as (sim & -> & H). cbn [bind].
  apply bind_ok in H. destruct H as (m & -> & H). cbn [bind]. apply bind_ok in H. destruct H as (g & G & H).
  apply qdiv_inv in G. destruct G as [N ->]. rewrite qdiv_ok by (rewrite <- R; exact N). cbn [bind].
  apply bind_ok in H. destruct H as (d & D & H). apply ok_inj in H. apply pair_equal_spec in H. destruct H as [-> <-].
  assert (GE : eqs (map (fun x => x / 60 * daily * mix) (hr_to_min (day_from (repeat (1 / run) 24) i)))
                   (map (fun x => x / 60 * daily * mix) (hr_to_min (day_from (repeat (1 / run') 24) i)))).
  { apply eqs_map; [intros x y E; rewrite E; reflexivity|]. apply eqs_minutes. unfold day_from. apply eqs_firstn, eqs_skipn.
    apply eqs_app; apply eqs_repeat; rewrite R; reflexivity. }
  destruct (vsub_eq _ _ _ _ GE D) as (d' & -> & E).
  cbn [bind]. eexists. split; [reflexivity|]. apply worst_deficit_eq. apply cumsum_eq; [reflexivity|exact E].
Qed.

Lemma swing_peaks_eq v run run' daily shape idxs : run == run' -> forall best best' mix vol mx,
  best == best' -> swing_peaks v run daily shape idxs best mix = Ok (vol, mx) ->
  exists vol', swing_peaks v run' daily shape idxs best' mix = Ok (vol', mx) /\ vol == vol'.
Proof.
  intro R. induction idxs as [|i r IH]; intros best best' mix vol mx B H; cbn [swing_peaks] in *.
  - apply ok_inj in H. apply pair_equal_spec in H. destruct H as [<- <-]. exists best'. split; [reflexivity|exact B].
  - apply bind_ok in H. destruct H as ([m o] & O & H). destruct (swing_peak_eq _ _ _ _ _ _ _ _ R O) as (o' & -> & E). cbn [bind fst snd] in *.
    destruct o as [d|], o' as [d'|]; try (destruct E; fail).
    + rewrite (qltb_eq best best' d d' B E) in H. destruct (qltb best' d'); eapply IH; eauto.
    + eapply IH; eauto.
Qed.

Lemma swing_running_eq s b h h' mo V : h == h' -> swing_running (sw_set_run s h) b = Ok (mo, V) ->
  exists V', swing_running (sw_set_run s h') b = Ok (mo, V') /\ V == V'.
Proof.
  intros R H. unfold swing_running in *. apply bind_ok in H. destruct H as (inl & -> & H). cbn [bind].
  cbn [sw_set_run sw_set_dhw sw_dhw dh_set_run dh_run] in *. apply bind_ok in H. destruct H as (g & G & H).
  apply qdiv_inv in G. destruct G as [N ->]. rewrite qdiv_ok by (rewrite <- R; exact N). cbn [bind].
  apply bind_ok in H. destruct H as (d & D & H).
  assert (GE : 1 / h == 1 / h') by (rewrite R; reflexivity).
  destruct (vsub_eq _ (repeat (1 / h') 24) _ _ (eqs_repeat _ _ 24 GE) D) as (d' & -> & E). cbn [bind].
  rewrite <- (peak_indices_eq _ _ E). destruct (peak_indices d) as [|i l].
  - apply ok_inj in H. apply pair_equal_spec in H. destruct H as [<- <-]. exists 0. split; reflexivity.
  - apply bind_ok in H. destruct H as (v & EV & H).
    assert (EV' : env_of (sw_set_run s h') inl = Ok v) by exact EV. rewrite EV'. cbn [bind].
    apply bind_ok in H. destruct H as ([vol mx] & P & H).
    destruct (swing_peaks_eq _ _ _ _ _ _ R _ _ _ _ _ (Qeq_refl 0) P) as (vol' & -> & EV2). cbn [bind].
    apply bind_ok in H. destruct H as (k & -> & H). cbn [bind]. apply ok_inj in H. apply pair_equal_spec in H. destruct H as [<- <-].
    eexists. split; [reflexivity|]. rewrite EV2. reflexivity.
Qed.

Lemma swing_capacity_eq s b h h' mix c : h == h' -> swing_capacity (sw_set_mix (sw_set_run s h) mix) b = Ok c ->
  exists c', swing_capacity (sw_set_mix (sw_set_run s h') mix) b = Ok c' /\ c == c'.
Proof.
  intros R H. unfold swing_capacity, swing_capacity_of, swing_normal_gen in *. apply bind_ok in H. destruct H as (inl & -> & H). cbn [bind].
  cbn [sw_set_mix sw_set_run sw_set_dhw sw_dhw sw_eff_mix dh_set_run dh_run dh_storage dh_defrost] in *.
  apply bind_ok in H. destruct H as (g & G & H). apply qdiv_inv in G. destruct G as [N ->]. rewrite qdiv_ok by (rewrite <- R; exact N). cbn [bind].
  apply bind_ok in H. destruct H as (x & X & H). apply qdiv_inv in X. destruct X as [N2 ->]. rewrite qdiv_ok by exact N2. cbn [bind].
  apply ok_inj in H. subst c. eexists. split; [reflexivity|]. rewrite R. reflexivity.
Qed.

(** ** Multi-pass curves *)

Lemma insert_last x l : (forall y, In y l -> ~ fst (fst y) < fst (fst x)) -> insert_desc x l = l ++ [x].
Proof.
  induction l as [|y l IH]; intro H; cbn [insert_desc app]; [reflexivity|].
  destruct (qltb (fst (fst y)) (fst (fst x))) eqn:E.
  - exfalso. apply (H y (or_introl eq_refl)). qbool. assumption.
  - rewrite IH; [reflexivity|]. intros z I. apply H. right. exact I.
Qed.

(** Every later entry is smaller. *)
Fixpoint falling (l : list (Q * Q * Q)) : Prop :=
  match l with [] => True | x :: r => (forall y, In y r -> fst (fst y) < fst (fst x)) /\ falling r end.

Lemma falling_app l x : falling l -> (forall y, In y l -> fst (fst x) < fst (fst y)) -> falling (l ++ [x]).
Proof.
  induction l as [|y l IH]; intros F H; cbn [app falling].
  - split; [intros z []|exact I].
  - destruct F as [F1 F2]. split.
    + intros z Z. apply in_app_or in Z. destruct Z as [Z|[<-|[]]]; [apply F1; exact Z|apply H; left; reflexivity].
    + apply IH; [exact F2|]. intros z Z. apply H. right. exact Z.
Qed.

Lemma sort_falling l : falling l -> sort_desc l = l.
Proof.
  intro F. unfold sort_desc.
  assert (G : forall l acc, falling l -> (forall x y, In x l -> In y acc -> fst (fst x) < fst (fst y)) ->
    fold_left (fun acc x => insert_desc x acc) l acc = acc ++ l).
  { clear. induction l as [|x l IH]; intros acc F H; cbn [fold_left]; [rewrite app_nil_r; reflexivity|].
    destruct F as [F1 F2]. rewrite insert_last.
    - rewrite IH; [rewrite <- app_assoc; reflexivity|exact F2|].
      intros u y U Y. apply in_app_or in Y. destruct Y as [Y|[<-|[]]]; [apply H; [right; exact U|exact Y]|apply F1; exact U].
    - intros y Y C. specialize (H x y (or_introl eq_refl) Y). lra. }
  rewrite G; [reflexivity|exact F|intros x y _ []].
Qed.

Lemma mp_loop_first pt num de hs : forall rec acc rec' pts x r, acc = x :: r -> rec = Some (fst (fst x)) -> falling acc ->
  mp_curve_loop pt num de hs rec acc = Ok (rec', pts) ->
  rec' = Some (fst (fst x)) /\ falling pts /\ exists r', pts = x :: r'.
Proof.
  induction hs as [|h hs IH]; intros rec acc rec' pts x r EA ER F H; cbn [mp_curve_loop] in H.
  - apply ok_inj in H. apply pair_equal_spec in H. destruct H as [<- <-]. split; [exact ER|]. split; [exact F|]. exists r. exact EA.
  - apply bind_ok in H. destruct H as ([[vol cap]|] & P & H).
    + apply bind_ok in H. destruct H as (q & _ & H). rewrite ER in H. cbn match in H.
      destruct (existsb _ acc) eqn:EX in H.
      * eapply IH; [exact EA|reflexivity|exact F|exact H].
      * eapply (IH _ (acc ++ [(py_round1 q, cap, vol)])); [rewrite EA; reflexivity|reflexivity| |exact H].
        apply falling_app; [exact F|]. intros y Y. cbn [fst snd].
        destruct (Qlt_le_dec (py_round1 q) (fst (fst y))) as [|C]; [assumption|]. exfalso.
        assert (existsb (fun p : Q * Q * Q => Qle_bool (fst (fst p)) (py_round1 q)) acc = true).
        { apply existsb_exists. exists y. split; [exact Y|]. apply Qle_bool_iff. exact C. }
        congruence.
    + apply ok_inj in H. apply pair_equal_spec in H. destruct H as [<- <-]. split; [exact ER|]. split; [exact F|]. exists r. exact EA.
Qed.

Lemma argmin_first i best l : (forall x, In x l -> best <= x) -> argmin_from i 0 best l = 0%Z.
Proof.
  revert i. induction l as [|x l IH]; intros i H; cbn [argmin_from]; [reflexivity|].
  destruct (qltb x best) eqn:E.
  - exfalso. qbool. specialize (H x (or_introl eq_refl)). lra.
  - apply IH. intros y Y. apply H. right. exact Y.
Qed.

(** A multi-pass curve is empty, or starts with the sized system and marks it. *)
Lemma mp_curve_mark lib x b slope step b' cv : 0 < step -> mp_sizing_curve lib x b slope step = (b', Ok cv) ->
  length (cv_capacity cv) = length (cv_hours cv) /\ length (cv_storage cv) = length (cv_hours cv) /\
  strictly_decreasing (cv_hours cv) /\ cv_rec cv = 0%Z /\
  (cv_hours cv = [] \/ exists c v cs vs, dh_min_cap (mb_dhw x) = Some c /\ dh_min_stor (mb_dhw x) = Some v /\ ~ v == 0 /\
     cv_capacity cv = c :: cs /\ cv_storage cv = v :: vs) /\
  (forall lo b1 v, (if bd_is_annual b then bd_set_daily lib b else Ok b) = Ok b1 -> min_run_hr b1 = Ok lo -> lo < dh_run (mb_dhw x) ->
     dh_min_stor (mb_dhw x) = Some v -> ~ v == 0 -> cv_hours cv <> []).
Proof.
  intros Hst H. unfold mp_sizing_curve in H. destruct (if bd_is_annual b then bd_set_daily lib b else Ok b) as [b1|] eqn:Eb; [|discriminate].
  unfold restore_annual in H.
  set (body := mp_curve_body _ _ _ _ _ _ _ _) in H.
  assert (B : body = Ok cv) by (destruct (bd_is_annual b); [destruct (bd_set_annual lib b1)|]; congruence).
  clear H. unfold body, mp_curve_body in B. clear body.
  apply bind_ok in B. destruct B as (inl & I1 & B). apply bind_ok in B. destruct B as (lo & LO & B).
  apply bind_ok in B. destruct B as (hs & HS & B). apply bind_ok in B. destruct B as ([rec pts] & L & B). cbv beta iota in B.
  destruct (arange_desc _ _ _ _ Hst HS) as (_ & _ & H2 & H3).
  assert (FST : pts = [] \/ exists c v r, dh_min_cap (mb_dhw x) = Some c /\ dh_min_stor (mb_dhw x) = Some v /\ ~ v == 0 /\
     exists back, pts = (back, c, v) :: r /\ rec = Some back /\ falling pts).
  { destruct hs as [|h hs]; cbn [mp_curve_loop] in L.
    - left. apply ok_inj in L. congruence.
    - apply bind_ok in L. destruct L as (o & P & L).
      assert (h == dh_run (mb_dhw x)).
      { destruct (Qlt_le_dec lo (dh_run (mb_dhw x))) as [C|C].
        - destruct (H2 C) as [r E]. injection E as -> _. change (qz 0) with 0. ring.
        - discriminate (H3 C). }
      unfold mp_curve_point in P. assert (Q : Qeq_bool h (dh_run (mb_dhw x)) = true) by (apply Qeq_bool_iff; assumption). rewrite Q in P.
      destruct (dh_min_stor (mb_dhw x)) as [v|] eqn:V; [|discriminate]. destruct (dh_min_cap (mb_dhw x)) as [c|] eqn:C; [|discriminate].
      apply ok_inj in P. destruct (Qeq_bool v 0) eqn:Z.
      + left. subst o. apply ok_inj in L. congruence.
      + right. subst o. apply bind_ok in L. destruct L as (q & _ & L). cbn [existsb app] in L.
        destruct (mp_loop_first _ _ _ _ _ _ _ _ (py_round1 q, c, v) [] eq_refl eq_refl ltac:(cbn; split; [intros y []|exact I]) L) as (R & F & r' & E).
        exists c, v, r'. split; [reflexivity|]. split; [reflexivity|]. split; [apply Qeq_bool_neq; exact Z|]. exists (py_round1 q). auto. }
  assert (NE : lo < dh_run (mb_dhw x) -> forall v, dh_min_stor (mb_dhw x) = Some v -> ~ v == 0 -> pts <> []).
  { intros C v V Z E. destruct (H2 C) as [r Er]. subst hs. cbn [mp_curve_loop] in L.
    apply bind_ok in L. destruct L as (o & P & L). unfold mp_curve_point in P.
    assert (Q : Qeq_bool (dh_run (mb_dhw x) + qz 0 * - step) (dh_run (mb_dhw x)) = true) by (apply Qeq_bool_iff; change (qz 0) with 0; ring).
    rewrite Q, V in P. destruct (dh_min_cap (mb_dhw x)) as [c|]; [|discriminate]. apply ok_inj in P.
    destruct (Qeq_bool v 0) eqn:ZE; [apply Qeq_bool_iff in ZE; contradiction|]. subst o.
    apply bind_ok in L. destruct L as (q & _ & L). cbn [existsb app] in L.
    destruct (mp_loop_first _ _ _ _ _ _ _ _ (py_round1 q, c, v) [] eq_refl eq_refl ltac:(cbn; split; [intros y []|exact I]) L) as (R & F & r' & E2).
    congruence. }
  destruct FST as [->|(c & v & r & C & V & NZ & back & E & R & F)].
  - apply ok_inj in B. subst cv. cbn. repeat split; auto. intros lo' b2 w EB EL Lt W Z _.
    apply ok_inj in EB. subst b2. assert (lo' = lo) by congruence. subst lo'. exact (NE Lt w W Z eq_refl).
  - rewrite E in B. cbv beta iota in B. rewrite <- E in B. rewrite (sort_falling _ F) in B. apply ok_inj in B. subst cv.
    cbn [cv_hours cv_capacity cv_storage cv_rec]. rewrite !map_length. repeat split; auto.
    + clear -F. induction pts as [|y l IH]; [exact I|]. destruct F as [F1 F2]. cbn [map]. destruct l as [|z l]; [exact I|].
      split; [apply F1; left; reflexivity|]. apply IH. exact F2.
    + rewrite E, R. cbn [map argmin M_SimRun.or0 fst snd]. apply argmin_first. intros y Y.
      setoid_replace (back - back) with 0 by ring. change (Qabs 0) with 0.
      apply in_map_iff in Y. destruct Y as (u & <- & _). apply Qabs_nonneg.
    + right. rewrite E. exists c, v, (map (fun p => snd (fst p)) r), (map snd r). auto.
    + intros. rewrite E. discriminate.
Qed.
