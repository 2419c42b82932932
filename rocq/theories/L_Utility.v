(** Proofs about UtilityCostTracker. *)
From Verif Require Import Prelude M_Building S_Building M_Utility S_Utility.
From Verif Require Import L_Heater L_Building.

(** ** Validation *)

Lemma validate_entry_iff p n i : (i < n)%nat -> validate_entry p n i = Ok tt <-> season_ok p n i.
Proof.
  intro Hi. unfold validate_entry, season_ok.
  destruct (nth i (pr_pk_start p) None) as [s|].
  2:{ split; [discriminate|]. intros ((? & ? & H & _) & _). discriminate. }
  destruct (qltb s 0 || qltb 23 s)%bool eqn:B1.
  { split; [discriminate|]. intros ((s' & e & E & _ & H1 & H2 & _) & _). inversion E; subst.
    qbool. destruct B1; qbool; exfalso; lra. }
  destruct (nth i (pr_pk_end p) None) as [e|].
  2:{ split; [discriminate|]. intros ((? & ? & _ & H & _) & _). discriminate. }
  destruct (qltb e s || qltb 24 e)%bool eqn:B2.
  { split; [discriminate|]. intros ((s' & e' & E & E' & _ & _ & H1 & H2) & _). inversion E; inversion E'; subst.
    qbool. destruct B2; qbool; exfalso; lra. }
  apply orb_false_iff in B1, B2. destruct B1 as [B1a B1b], B2 as [B2a B2b]. qbool.
  destruct (nth i (pr_pk_demand p) None) as [x1|]; [|split; [discriminate|]; intros (_ & HX & _); congruence].
  destruct (nth i (pr_off_demand p) None) as [x2|]; [|split; [discriminate|]; intros (_ & _ & HX & _); congruence].
  destruct (nth i (pr_pk_energy p) None) as [x3|]; [|split; [discriminate|]; intros (_ & _ & _ & HX & _); congruence].
  destruct (nth i (pr_off_energy p) None) as [x4|]; [|split; [discriminate|]; intros (_ & _ & _ & _ & HX & _); congruence].
  destruct (nth i (pr_start_month p) None) as [a|].
  2:{ split; [discriminate|]. intros (_ & _ & _ & _ & _ & a & b & HX & _). discriminate. }
  assert (START : (match i with
                   | O => negb (a =? 0)%Z
                   | S j => match nth j (pr_end_month p) None with
                            | Some em => negb (a =? em)%Z | None => true end
                   end) = false <-> ((i = 0%nat -> a = 0%Z) /\ forall j, i = S j -> nth j (pr_end_month p) None = Some a)).
  { destruct i as [|j].
    - rewrite negb_false_iff, Z.eqb_eq. split; [intro; subst; split; [auto|discriminate]|intros [H _]; auto].
    - destruct (nth j (pr_end_month p) None) as [em|] eqn:E.
      + rewrite negb_false_iff, Z.eqb_eq. split.
        * intros ->. split; [discriminate|]. intros j' J. inversion J; subst. exact E.
        * intros [_ H]. specialize (H j eq_refl). congruence.
      + split; [discriminate|]. intros [_ H]. specialize (H j eq_refl). congruence. }
  destruct (match i with O => _ | S j => _ end) eqn:BS.
  { split; [discriminate|]. intros (_ & _ & _ & _ & _ & a' & b & E & _ & _ & H1 & H2 & _).
    inversion E; subst. destruct START as [_ ST]. specialize (ST (conj H1 H2)). discriminate. }
  destruct START as [ST _]. specialize (ST eq_refl). destruct ST as [ST1 ST2].
  destruct (nth i (pr_end_month p) None) as [b|].
  2:{ split; [discriminate|]. intros (_ & _ & _ & _ & _ & a' & b & _ & HX & _). discriminate. }
  destruct (b <=? a)%Z eqn:B3.
  { split; [discriminate|]. intros (_ & _ & _ & _ & _ & a' & b' & E & E' & HX & _).
    inversion E; inversion E'; subst. apply Z.leb_le in B3. lia. }
  apply Z.leb_gt in B3.
  destruct (Nat.eqb i (n - 1) && negb (b =? 12)%Z)%bool eqn:B4.
  { split; [discriminate|]. intros (_ & _ & _ & _ & _ & a' & b' & _ & E' & _ & _ & _ & HX).
    inversion E'; subst. apply andb_true_iff in B4. destruct B4 as [B4 B5].
    apply Nat.eqb_eq in B4. apply negb_true_iff in B5. apply Z.eqb_neq in B5. exfalso. apply B5, HX. lia. }
  split; [|reflexivity]. intros _.
  split; [exists s, e; repeat (split; [first [reflexivity|assumption]|]); assumption|].
  do 4 (split; [discriminate|]). exists a, b.
  do 2 (split; [reflexivity|]). split; [exact B3|]. split; [exact ST1|]. split; [exact ST2|].
  intro E. apply andb_false_iff in B4. destruct B4 as [B4|B4].
  - apply Nat.eqb_neq in B4. lia.
  - apply negb_false_iff in B4. apply Z.eqb_eq in B4. exact B4.
Qed.

Lemma validate_entry_err p n i e : validate_entry p n i = Err e -> e = ValueError.
Proof.
  unfold validate_entry.
  repeat match goal with
  | |- context [if ?b then _ else _] => destruct b
  | |- context [match ?b with Some _ => _ | None => _ end] => destruct b
  | |- context [match ?b with O => _ | S _ => _ end] => destruct b
  end; congruence.
Qed.

Lemma validate_loop_iff p n is :
  (forall i, In i is -> (i < n)%nat) ->
  (validate_loop p n is = Ok tt <-> forall i, In i is -> season_ok p n i) /\
  (forall e, validate_loop p n is = Err e -> e = ValueError).
Proof.
  induction is as [|i is IH]; intro H; cbn [validate_loop].
  - split; [|discriminate]. split; [intros _ i []|reflexivity].
  - destruct IH as [IH1 IH2]; [intros; apply H; right; assumption|].
    pose proof (validate_entry_iff p n i (H i (or_introl eq_refl))) as V.
    destruct (validate_entry p n i) as [[]|e] eqn:E; cbn [bind].
    + destruct V as [V _]. specialize (V eq_refl). split; [|exact IH2].
      rewrite IH1. split.
      * intros A j [<-|Hj]; auto.
      * intros A j Hj. apply A. right; exact Hj.
    + split.
      * split; [discriminate|]. intro A. destruct V as [_ V].
        specialize (V (A i (or_introl eq_refl))). discriminate.
      * intros e' H'. inversion H'; subst. eapply validate_entry_err; eauto.
Qed.

Lemma validate_params_iff p : validate_params p = Ok tt <-> valid_tariff p.
Proof.
  unfold validate_params, valid_tariff. cbv zeta.
  destruct (pr_base p) as [b|]; [|split; [discriminate|]; intros [H _]; congruence].
  set (n := length (pr_pk_start p)).
  match goal with |- context [negb ?x] => destruct x eqn:B end; cbn [negb].
  - repeat match goal with H : (_ && _)%bool = true |- _ => apply andb_true_iff in H; destruct H end.
    repeat match goal with H : Nat.eqb _ _ = true |- _ => apply Nat.eqb_eq in H end.
    destruct (validate_loop_iff p n (seq 0 n)) as [V _].
    { intros i Hi. apply in_seq in Hi. lia. }
    rewrite V. split.
    + intro A. split; [discriminate|]. repeat (split; [assumption|]).
      intros i Hi. apply A. apply in_seq. lia.
    + intros (_ & _ & _ & _ & _ & _ & _ & _ & A) i Hi. apply A. apply in_seq in Hi. lia.
  - split; [discriminate|]. intros (_ & E1 & E2 & E3 & E4 & E5 & E6 & E7 & _).
    rewrite E1, E2, E3, E4, E5, E6, E7, Nat.eqb_refl in B. discriminate.
Qed.

Lemma validate_params_err p : ~ valid_tariff p -> validate_params p = Err ValueError.
Proof.
  intro N. destruct (validate_params p) as [[]|e] eqn:E; [apply validate_params_iff in E; tauto|].
  f_equal. revert E. unfold validate_params. cbv zeta.
  destruct (pr_base p); [|congruence].
  match goal with |- context [negb ?x] => destruct x end; cbn [negb]; [|congruence].
  apply validate_loop_iff. intros i Hi. apply in_seq in Hi. lia.
Qed.

(** ** The season list *)

Lemma season_at_ok p n i : (i < n)%nat -> n = length (pr_pk_start p) -> valid_tariff p -> discounts_long p ->
  exists s, season_at p i = Ok s /\
    nth i (pr_start_month p) None = Some (se_start s) /\ nth i (pr_end_month p) None = Some (se_end s) /\
    (se_start s < se_end s)%Z /\
    se_off_demand s = demand_rate p i OffPeak /\ se_pk_demand s = demand_rate p i Peak /\
    se_dc_demand s = demand_rate p i Discount /\
    se_off_energy s = energy_rate p i OffPeak /\ se_pk_energy s = energy_rate p i Peak /\
    se_dc_energy s = energy_rate p i Discount /\
    se_pk_start s = nth i (pr_pk_start p) None /\ se_pk_end s = nth i (pr_pk_end p) None /\
    se_dc_start s = nth i (pr_dc_start p) None /\ se_dc_end s = nth i (pr_dc_end p) None.
Proof.
  intros Hi -> V (D1 & D2 & D3 & D4).
  destruct V as (_ & _ & _ & _ & _ & _ & _ & _ & V). specialize (V i Hi).
  destruct V as (_ & _ & _ & _ & _ & a & b & E1 & E2 & L & _).
  unfold season_at.
  assert (N : forall (l : list (option Q)), (length (pr_pk_start p) <= length l)%nat -> nth_error l i = Some (nth i l None)).
  { intros l Hl. apply nth_error_nth'. lia. }
  rewrite (N _ D1), (N _ D2), (N _ D3), (N _ D4), E1, E2.
  eexists. split; [reflexivity|]. cbn. repeat split; auto.
Qed.

(** Seasons that follow one another from month [a]. *)
Fixpoint chain (a : Z) (ss : list season) : Prop :=
  match ss with
  | [] => True
  | s :: r => se_start s = a /\ (a < se_end s)%Z /\ chain (se_end s) r
  end.
Fixpoint chain_end (a : Z) (ss : list season) : Z :=
  match ss with [] => a | s :: r => chain_end (se_end s) r end.

Lemma seasons_exist p : valid_tariff p -> discounts_long p ->
  forall k i0 a, (i0 + k = length (pr_pk_start p))%nat ->
  (match i0 with O => a = 0%Z | S j => nth j (pr_end_month p) None = Some a end) ->
  exists ss, mapM (season_at p) (seq i0 k) = Ok ss /\ length ss = k /\ chain a ss /\
    ((0 < k)%nat -> chain_end a ss = 12%Z) /\ (0 <= a -> forall s, In s ss -> a <= se_start s)%Z.
Proof.
  intros V D. induction k as [|k IH]; intros i0 a Hk Ha.
  - exists []. cbn. repeat split; try lia.
  - destruct (season_at_ok p (length (pr_pk_start p)) i0 ltac:(lia) eq_refl V D) as (s & Es & S1 & S2 & S3 & _).
    assert (A : se_start s = a).
    { destruct V as (_ & _ & _ & _ & _ & _ & _ & _ & V). specialize (V i0 ltac:(lia)).
      destruct V as (_ & _ & _ & _ & _ & a' & b' & E1 & E2 & _ & F1 & F2 & _).
      rewrite S1 in E1. inversion E1; subst a'. destruct i0 as [|j]; [rewrite F1; auto|].
      specialize (F2 j eq_refl). congruence. }
    destruct (IH (S i0) (se_end s)) as (ss & M & L & C & CE & CL); [lia|exact S2|].
    exists (s :: ss). cbn [seq mapM]. rewrite Es. cbn [bind]. rewrite M. cbn [bind].
    split; [reflexivity|]. split; [cbn; lia|]. split; [cbn [chain]; split; [exact A|split; [lia|exact C]]|].
    split.
    + intros _. cbn [chain_end]. destruct k as [|k].
      * destruct ss; [|discriminate]. cbn.
        destruct V as (_ & _ & _ & _ & _ & _ & _ & _ & V). specialize (V i0 ltac:(lia)).
        destruct V as (_ & _ & _ & _ & _ & a' & b' & _ & E2 & _ & _ & _ & F).
        rewrite S2 in E2. inversion E2; subst. apply F. lia.
      * apply CE. lia.
    + intros A0 s' [<-|Hs]; [lia|]. specialize (CL ltac:(lia) s' Hs). lia.
Qed.

Lemma fill_loop_seasons p is u ss :
  mapM (season_at p) is = Ok ss ->
  fill_loop p is u = Ok (fold_left (fun u s => fill_period_maps u s (pr_include_discount p)
                        (if pr_include_discount p then 3 else 2)) ss u).
Proof.
  revert u ss. induction is as [|i is IH]; intros u ss H; cbn [mapM fill_loop] in *.
  - inversion H; reflexivity.
  - destruct (bind_ok _ _ _ H) as (s & Es & H1). destruct (bind_ok _ _ _ H1) as (r & Er & H2).
    inversion H2; subst. rewrite Es. cbn [bind fold_left]. apply IH. exact Er.
Qed.

Lemma fill_loop_mapM p is u u' : fill_loop p is u = Ok u' -> exists ss, mapM (season_at p) is = Ok ss.
Proof.
  revert u. induction is as [|i is IH]; intros u H; cbn [mapM fill_loop] in *; [eauto|].
  destruct (bind_ok _ _ _ H) as (s & Es & H1). destruct (IH _ H1) as (r & Er).
  rewrite Es. cbn [bind]. rewrite Er. eexists. reflexivity.
Qed.

Lemma mapM_discounts p n ss : mapM (season_at p) (seq 0 n) = Ok ss ->
  (n <= length (pr_dc_energy p))%nat /\ (n <= length (pr_dc_demand p))%nat /\
  (n <= length (pr_dc_start p))%nat /\ (n <= length (pr_dc_end p))%nat.
Proof.
  intro H. destruct n as [|n]; [repeat split; lia|].
  assert (E : nth_error (seq 0 (S n)) n = Some n).
  { rewrite (nth_error_nth' _ 0%nat) by (rewrite seq_length; lia). rewrite seq_nth by lia. reflexivity. }
  destruct (mapM_nth _ _ _ _ _ H E) as (s & _ & Es). unfold season_at in Es.
  destruct (nth_error (pr_dc_energy p) n) eqn:E1; [|discriminate].
  destruct (nth_error (pr_dc_demand p) n) eqn:E2; [|discriminate].
  destruct (nth_error (pr_dc_start p) n) eqn:E3; [|discriminate].
  destruct (nth_error (pr_dc_end p) n) eqn:E4; [|discriminate].
  assert (G : forall A (l : list A) x, nth_error l n = Some x -> (S n <= length l)%nat).
  { intros A l x H'. apply nth_error_Some. congruence. }
  repeat split; eapply G; eauto.
Qed.

Lemma fill_loop_short p is u : (forall i, In i is -> nth i (pr_start_month p) None <> None /\ nth i (pr_end_month p) None <> None) ->
  (exists i, In i is /\ ((length (pr_dc_energy p) <= i)%nat \/ (length (pr_dc_demand p) <= i)%nat \/
     (length (pr_dc_start p) <= i)%nat \/ (length (pr_dc_end p) <= i)%nat)) ->
  fill_loop p is u = Err IndexError.
Proof.
  revert u. induction is as [|i is IH]; intros u NM (j & Hj & S0); [destruct Hj|].
  cbn [fill_loop]. destruct (season_at p i) as [s|e] eqn:E.
  - cbn [bind]. apply IH; [intros; apply NM; right; assumption|].
    destruct Hj as [<-|Hj]; [|eauto]. exfalso. unfold season_at in E.
    destruct S0 as [S0|[S0|[S0|S0]]]; apply nth_error_None in S0; rewrite S0 in E;
      repeat match goal with H : context [nth_error ?l ?k] |- _ => destruct (nth_error l k); try discriminate end.
  - cbn [bind]. f_equal. unfold season_at in E.
    repeat match goal with H : context [nth_error ?l ?k] |- _ => destruct (nth_error l k); try congruence end.
    destruct (NM i (or_introl eq_refl)) as [N1 N2].
    destruct (nth i (pr_start_month p) None); [|congruence]. destruct (nth i (pr_end_month p) None); congruence.
Qed.

Lemma from_params_iff p : (exists u, from_params p = Ok u) <-> valid_tariff p /\ discounts_long p.
Proof.
  unfold from_params. split.
  - intros (u & H). destruct (bind_ok _ _ _ H) as ([] & V & H1). apply validate_params_iff in V.
    split; [exact V|]. destruct (pr_base p); [|discriminate].
    destruct (fill_loop_mapM _ _ _ _ H1) as (ss & M). exact (mapM_discounts _ _ _ M).
  - intros [V D]. assert (V' := V). apply validate_params_iff in V'. rewrite V'. cbn [bind].
    assert (B := V). destruct B as (B & _). destruct (pr_base p) as [b|]; [|congruence].
    destruct (seasons_exist p V D (length (pr_pk_start p)) 0%nat 0%Z) as (ss & M & _); [lia|reflexivity|].
    rewrite (fill_loop_seasons _ _ _ _ M). eexists. reflexivity.
Qed.

Lemma from_params_errors p :
  (~ valid_tariff p -> from_params p = Err ValueError) /\
  (valid_tariff p -> ~ discounts_long p -> from_params p = Err IndexError).
Proof.
  split.
  - intro N. unfold from_params. rewrite (validate_params_err p N). reflexivity.
  - intros V N. unfold from_params. assert (V' := V). apply validate_params_iff in V'. rewrite V'. cbn [bind].
    assert (B := V). destruct B as (B & _). destruct (pr_base p) as [b|]; [|congruence].
    set (n := length (pr_pk_start p)) in *.
    apply fill_loop_short.
    + intros i Hi. apply in_seq in Hi. destruct V as (_ & _ & _ & _ & _ & _ & _ & _ & V).
      destruct (V i ltac:(fold n; lia)) as (_ & _ & _ & _ & _ & a & c & E1 & E2 & _). rewrite E1, E2. split; discriminate.
    + unfold discounts_long in N. fold n in N.
      destruct (Nat.eq_dec n 0) as [E0|E0]; [exfalso; apply N; cbv zeta; lia|].
      exists (n - 1)%nat. split; [apply in_seq; lia|]. cbv zeta in N.
      destruct (le_lt_dec n (length (pr_dc_energy p))); [|lia].
      destruct (le_lt_dec n (length (pr_dc_demand p))); [|lia].
      destruct (le_lt_dec n (length (pr_dc_start p))); [|lia].
      destruct (le_lt_dec n (length (pr_dc_end p))); [|lia].
      exfalso. apply N. auto.
Qed.

(** ** Hours and months *)

Lemma hour_month_bounds h m : hour_month h m ->
  (m < 12)%nat /\ (nth m month_hour_start 0 <= h < nth (m + 1) month_hour_start 0)%Z.
Proof.
  intros [Hm B]. split; [exact Hm|]. rewrite year_sum in B by exact Hm. rewrite <- month_start_sum in B by exact Hm.
  assert (D := Z.div_mod h 24 ltac:(lia)). assert (M := Z.mod_pos_bound h 24 ltac:(lia)).
  set (d := (h / 24)%Z) in *. set (r := (h mod 24)%Z) in *. clearbody d r.
  do 12 (destruct m as [|m]; [cbn [nth month_start_day month_hour_start Nat.eqb Nat.add] in B |- *; lia|]). lia.
Qed.

Lemma hour_month_ex h : (0 <= h < 8760)%Z -> exists m, hour_month h m.
Proof.
  intro H. exists (Z.to_nat (day_of_year_to_month (h / 24))). apply in_month_month.
  split; [apply Z.div_pos; lia|apply Z.div_lt_upper_bound; lia].
Qed.

Lemma hour_month_year h m : hour_month h m -> (0 <= h < 8760)%Z.
Proof.
  intro H. apply hour_month_bounds in H. destruct H as [Hm B].
  do 12 (destruct m as [|m]; [cbn in *; lia|]). lia.
Qed.

Lemma hour_month_other h m m' : hour_month h m -> (m' < 12)%nat -> m' <> m ->
  ~ (nth m' month_hour_start 0 <= h < nth (m' + 1) month_hour_start 0)%Z.
Proof.
  intros H Hm' N. apply hour_month_bounds in H. destruct H as [Hm B].
  do 12 (destruct m as [|m]; [do 12 (destruct m' as [|m']; [cbn in *; lia|]); lia|]). lia.
Qed.

Lemma hour_to_month_ok h m : hour_month h m -> hour_to_month h = Z.of_nat m.
Proof.
  intro H. apply hour_month_bounds in H. destruct H as [Hm B]. unfold hour_to_month.
  do 12 (destruct m as [|m]; [
    cbn [nth Nat.add month_hour_start] in B; cbn [hour_scan nth month_hour_start];
    repeat match goal with |- context [(?x <=? h)%Z] => destruct (Z.leb_spec x h); try lia end; reflexivity|]).
  lia.
Qed.

Lemma write_range_nth f lo hi : forall l i j d, (j < length l)%nat ->
  nth j (write_range i lo hi f l) d =
    (if ((lo <=? i + Z.of_nat j) && (i + Z.of_nat j <? hi))%Z%bool then f (i + Z.of_nat j)%Z else nth j l d).
Proof.
  induction l as [|x l IH]; intros i j d H; [cbn in H; lia|].
  cbn [write_range]. destruct j as [|j].
  - cbn [nth]. rewrite Z.add_0_r. reflexivity.
  - cbn [nth]. rewrite IH by (cbn in H; lia).
    replace (i + 1 + Z.of_nat j)%Z with (i + Z.of_nat (S j))%Z by lia. reflexivity.
Qed.

Lemma write_range_length f lo hi l i : length (write_range i lo hi f l) = length l.
Proof. revert i. induction l as [|x l IH]; intro i; [reflexivity|]. cbn. f_equal. apply IH. Qed.

(** ** Dictionaries *)

Lemma zget_zset {A} (d : list (Z * A)) k v k' :
  zget (zset d k v) k' = if (k =? k')%Z then Some v else zget d k'.
Proof.
  induction d as [|[a b] d IH]; cbn [zset zget].
  - reflexivity.
  - destruct (a =? k)%Z eqn:E; cbn [zget].
    + apply Z.eqb_eq in E. subst. destruct (k =? k')%Z; reflexivity.
    + rewrite IH. destruct (a =? k')%Z eqn:E2; [|reflexivity].
      destruct (k =? k')%Z eqn:E3; [|reflexivity].
      apply Z.eqb_eq in E2, E3. subst. rewrite Z.eqb_refl in E. discriminate.
Qed.

Lemma zset_fresh {A} (d : list (Z * A)) k v : zget d k = None -> zset d k v = d ++ [(k, v)].
Proof.
  induction d as [|[a b] d IH]; cbn [zset zget app]; [reflexivity|].
  destruct (a =? k)%Z; [discriminate|]. intro H. rewrite IH by exact H. reflexivity.
Qed.

Lemma zget_in_keys {A} (d : list (Z * A)) k : zget d k <> None <-> In k (map fst d).
Proof.
  induction d as [|[a b] d IH]; cbn [zget map fst In]; [split; [congruence|intros []]|].
  destruct (a =? k)%Z eqn:E.
  - apply Z.eqb_eq in E. split; [auto|discriminate].
  - apply Z.eqb_neq in E. rewrite IH. split; [auto|]. intros [H|H]; [congruence|exact H].
Qed.

(** ** Filling one month, one season, all seasons *)

(** What a season puts under the [j]-th key of a month. *)
Definition sel3 {A} (x0 x1 x2 : A) (j : Z) : A := if (j =? 0)%Z then x0 else if (j =? 1)%Z then x1 else x2.

(** Number of keys per month. *)
Definition npk (disc : bool) : Z := if disc then 3 else 2.

(** [dict_is d lo hi f]: the dictionary's keys are lo..hi-1 in order, and key [k] holds [f k]. *)
Definition dict_is {A} (d : list (Z * A)) (hi : Z) (f : Z -> A) : Prop :=
  d = map (fun k => (k, f k)) (zrange 0 hi).

Lemma zrange_snoc lo hi : (lo <= hi)%Z -> zrange lo (hi + 1) = zrange lo hi ++ [hi].
Proof.
  intro H. unfold zrange. replace (Z.to_nat (hi + 1 - lo)) with (S (Z.to_nat (hi - lo))) by lia.
  rewrite seq_S, map_app. cbn [map]. do 2 f_equal. lia.
Qed.

Lemma zrange_in lo hi k : In k (zrange lo hi) <-> (lo <= k < hi)%Z.
Proof.
  unfold zrange. rewrite in_map_iff. split.
  - intros (i & <- & Hi). apply in_seq in Hi. lia.
  - intro H. exists (Z.to_nat (k - lo)). split; [lia|]. apply in_seq. lia.
Qed.

Lemma zrange_cons lo hi : (lo < hi)%Z -> zrange lo hi = lo :: zrange (lo + 1) hi.
Proof.
  intro H. unfold zrange. replace (Z.to_nat (hi - lo)) with (S (Z.to_nat (hi - (lo + 1)))) by lia.
  cbn [seq map]. f_equal; [lia|]. rewrite <- seq_shift, map_map. apply map_ext. intro i. lia.
Qed.
Lemma zrange_nil lo hi : (hi <= lo)%Z -> zrange lo hi = [].
Proof. intro H. unfold zrange. replace (Z.to_nat (hi - lo)) with 0%nat by lia. reflexivity. Qed.

Lemma zget_map {A} (f : Z -> A) l k : zget (map (fun k => (k, f k)) l) k = if existsb (Z.eqb k) l then Some (f k) else None.
Proof.
  induction l as [|a l IH]; cbn [map zget existsb]; [reflexivity|].
  rewrite IH. destruct (a =? k)%Z eqn:E.
  - apply Z.eqb_eq in E. subst. rewrite Z.eqb_refl. reflexivity.
  - rewrite (Z.eqb_sym k a), E. reflexivity.
Qed.

Lemma dict_is_get {A} (d : list (Z * A)) hi f k : dict_is d hi f ->
  zget d k = if ((0 <=? k) && (k <? hi))%Z%bool then Some (f k) else None.
Proof.
  intros ->. rewrite zget_map.
  destruct ((0 <=? k)%Z && (k <? hi)%Z)%bool eqn:E.
  - replace (existsb (Z.eqb k) (zrange 0 hi)) with true; [reflexivity|]. symmetry.
    apply existsb_exists. exists k. split; [apply zrange_in; lia|apply Z.eqb_refl].
  - destruct (existsb (Z.eqb k) (zrange 0 hi)) eqn:X; [|reflexivity]. exfalso.
    apply existsb_exists in X. destruct X as (k' & Hk & E'). apply Z.eqb_eq in E'. subst. apply zrange_in in Hk. lia.
Qed.

Lemma dict_is_add {A} (d : list (Z * A)) hi f v : (0 <= hi)%Z -> dict_is d hi f -> f hi = v ->
  dict_is (zset d hi v) (hi + 1) f.
Proof.
  intros H D E. assert (G := dict_is_get d hi f hi D).
  replace ((0 <=? hi) && (hi <? hi))%Z%bool with false in G by lia.
  rewrite zset_fresh by exact G. unfold dict_is in *. subst d.
  rewrite zrange_snoc by lia. rewrite map_app. cbn [map]. congruence.
Qed.

(** Per-key value function of a tariff: month = k / np, window = k mod np. *)
Definition kval {A} (disc : bool) (F : Z -> Z -> A) (k : Z) : A := F (k / npk disc)%Z (k mod npk disc)%Z.

Lemma kval_at {A} disc (F : Z -> Z -> A) m j : (0 <= j < npk disc)%Z -> kval disc F (m * npk disc + j) = F m j.
Proof.
  intro H. unfold kval.
  replace (m * npk disc + j)%Z with (j + m * npk disc)%Z by lia.
  assert (npk disc <> 0)%Z by (unfold npk; destruct disc; lia).
  rewrite Z.div_add by assumption. rewrite Z.mod_add by assumption.
  rewrite Z.div_small, Z.mod_small by lia. reflexivity.
Qed.

(** The four dictionaries hold months 0..m-1 of the value functions. *)
Definition maps_are (disc : bool) (u : tracker) (m : Z) (Fd Fe : Z -> Z -> option Q) : Prop :=
  dict_is (ut_demand u) (m * npk disc) (kval disc Fd) /\
  dict_is (ut_energy u) (m * npk disc) (kval disc Fe) /\
  dict_is (ut_peak u) (m * npk disc) (kval disc (fun _ j => (j =? 1)%Z)) /\
  dict_is (ut_disc u) (m * npk disc) (kval disc (fun _ j => (j =? 2)%Z)).

Lemma dict_month {A} disc (d : list (Z * A)) m (F : Z -> Z -> A) x0 x1 x2 :
  (0 <= m)%Z -> dict_is d (m * npk disc) (kval disc F) ->
  F m 0%Z = x0 -> F m 1%Z = x1 -> (disc = true -> F m 2%Z = x2) ->
  dict_is (let d1 := zset (zset d (m * npk disc) x0) (m * npk disc + 1) x1 in
           if disc then zset d1 (m * npk disc + 2) x2 else d1) ((m + 1) * npk disc) (kval disc F).
Proof.
  intros Hm D E0 E1 E2. cbv zeta. set (n := npk disc) in *.
  assert (N : n = if disc then 3%Z else 2%Z) by reflexivity.
  assert (P : (0 <= m * n)%Z) by (destruct disc; nia).
  assert (D1 : dict_is (zset d (m * n) x0) (m * n + 1) (kval disc F)).
  { apply dict_is_add; [exact P|exact D|]. rewrite <- E0. rewrite <- (kval_at disc F m 0).
    - f_equal. fold n. lia.
    - fold n. destruct disc; lia. }
  assert (D2 : dict_is (zset (zset d (m * n) x0) (m * n + 1) x1) (m * n + 1 + 1) (kval disc F)).
  { apply dict_is_add; [lia|exact D1|]. rewrite <- E1. apply (kval_at disc F m 1). fold n. destruct disc; lia. }
  destruct disc.
  - replace ((m + 1) * n)%Z with (m * n + 2 + 1)%Z by lia. apply dict_is_add; [lia| |].
    + replace (m * n + 2)%Z with (m * n + 1 + 1)%Z by lia. exact D2.
    + rewrite <- E2 by reflexivity. apply (kval_at true F m 2). cbn. lia.
  - replace ((m + 1) * n)%Z with (m * n + 1 + 1)%Z by lia. exact D2.
Qed.

Lemma fill_month_maps_ok s disc u m Fd Fe :
  (0 <= m)%Z -> maps_are disc u m Fd Fe ->
  Fd m = sel3 (se_off_demand s) (se_pk_demand s) (se_dc_demand s) ->
  Fe m = sel3 (se_off_energy s) (se_pk_energy s) (se_dc_energy s) ->
  maps_are disc (fill_month_maps s disc (npk disc) u m) (m + 1) Fd Fe.
Proof.
  intros Hm (D & E & P & C) HF HE. unfold fill_month_maps. cbv zeta.
  pose proof (dict_month disc _ m _ _ _ (se_dc_demand s) Hm D eq_refl eq_refl) as D'.
  pose proof (dict_month disc _ m _ _ _ (se_dc_energy s) Hm E eq_refl eq_refl) as E'.
  pose proof (dict_month disc _ m _ false true false Hm P eq_refl eq_refl (fun _ => eq_refl)) as P'.
  pose proof (dict_month disc _ m _ false false true Hm C eq_refl eq_refl (fun _ => eq_refl)) as C'.
  rewrite HF in D'. rewrite HE in E'. cbn in D', E'.
  specialize (D' (fun _ => eq_refl)). specialize (E' (fun _ => eq_refl)).
  cbv zeta in *. unfold maps_are. destruct disc; cbn [ut_demand ut_energy ut_peak ut_disc]; auto.
Qed.

Lemma fill_maps_chart s disc np ms u :
  ut_chart (fold_left (fill_month_maps s disc np) ms u) = ut_chart u /\
  ut_base (fold_left (fill_month_maps s disc np) ms u) = ut_base u /\
  ut_by_hour (fold_left (fill_month_maps s disc np) ms u) = ut_by_hour u /\
  ut_include_discount (fold_left (fill_month_maps s disc np) ms u) = ut_include_discount u.
Proof.
  revert u. induction ms as [|m ms IH]; intro u; cbn [fold_left]; [auto|].
  destruct (IH (fill_month_maps s disc np u m)) as (A & B & C & D). rewrite A, B, C, D.
  unfold fill_month_maps. cbv zeta. destruct disc; auto.
Qed.

Lemma fill_chart_maps s disc np ms u :
  let u' := fold_left (fill_month_chart s disc np) ms u in
  ut_demand u' = ut_demand u /\ ut_energy u' = ut_energy u /\ ut_peak u' = ut_peak u /\
  ut_disc u' = ut_disc u /\ ut_base u' = ut_base u /\ ut_by_hour u' = ut_by_hour u /\
  ut_include_discount u' = ut_include_discount u.
Proof.
  cbv zeta. revert u. induction ms as [|m ms IH]; intro u; cbn [fold_left]; [repeat split|].
  apply (IH (fill_month_chart s disc np u m)).
Qed.

Lemma fill_maps_ok s disc Fd Fe : forall n a u,
  (0 <= a)%Z -> maps_are disc u a Fd Fe ->
  (forall m, (a <= m < a + Z.of_nat n)%Z ->
     Fd m = sel3 (se_off_demand s) (se_pk_demand s) (se_dc_demand s) /\
     Fe m = sel3 (se_off_energy s) (se_pk_energy s) (se_dc_energy s)) ->
  maps_are disc (fold_left (fill_month_maps s disc (npk disc)) (zrange a (a + Z.of_nat n)) u)
    (a + Z.of_nat n) Fd Fe.
Proof.
  induction n as [|n IH]; intros a u Ha M F.
  - rewrite zrange_nil by lia. cbn [fold_left]. rewrite Z.add_0_r. exact M.
  - rewrite zrange_cons by lia. cbn [fold_left].
    replace (a + Z.of_nat (S n))%Z with (a + 1 + Z.of_nat n)%Z by lia.
    apply IH; [lia| |intros m Hm; apply F; lia].
    apply fill_month_maps_ok; [exact Ha|exact M|apply F; lia|apply F; lia].
Qed.

(** Chart after the months [a, a+n) of one season. *)
Lemma fill_chart_ok s disc np : forall n a u h m,
  (0 <= a)%Z -> (a + Z.of_nat n <= 12)%Z -> Z.of_nat (length (ut_chart u)) = 8760%Z -> hour_month h m ->
  let u' := fold_left (fill_month_chart s disc np) (zrange a (a + Z.of_nat n)) u in
  length (ut_chart u') = length (ut_chart u) /\
  nth (Z.to_nat h) (ut_chart u') 0%Z =
    if ((a <=? Z.of_nat m) && (Z.of_nat m <? a + Z.of_nat n))%Z%bool
    then period_of_hour s disc np (Z.of_nat m) h else nth (Z.to_nat h) (ut_chart u) 0%Z.
Proof.
  induction n as [|n IH]; intros a u h m Ha Hn L H; cbv zeta.
  - rewrite zrange_nil by lia. cbn [fold_left]. split; [reflexivity|].
    match goal with |- _ = (if ?b then _ else _) => assert (EB : b = false) end.
    { apply andb_false_iff. destruct (Z.leb_spec a (Z.of_nat m)); [right; apply Z.ltb_ge; lia|left; reflexivity]. }
    rewrite EB. reflexivity.
  - rewrite zrange_cons by lia. cbn [fold_left].
    set (u1 := fill_month_chart s disc np u a).
    assert (L1 : length (ut_chart u1) = length (ut_chart u)).
    { unfold u1, fill_month_chart. cbn [ut_chart]. apply write_range_length. }
    destruct (IH (a + 1)%Z u1 h m ltac:(lia) ltac:(lia) ltac:(lia) H) as [A B]. cbv zeta in A, B.
    replace (a + Z.of_nat (S n))%Z with (a + 1 + Z.of_nat n)%Z by lia.
    split; [congruence|]. rewrite B. clear A B IH.
    pose proof (hour_month_year h m H) as HY. pose proof (hour_month_bounds h m H) as [Hm HB].
    assert (N1 : nth (Z.to_nat h) (ut_chart u1) 0%Z =
                 if (a =? Z.of_nat m)%Z then period_of_hour s disc np (Z.of_nat m) h else nth (Z.to_nat h) (ut_chart u) 0%Z).
    { unfold u1, fill_month_chart. cbn [ut_chart]. rewrite write_range_nth by lia.
      rewrite Z.add_0_l, Z2Nat.id by lia.
      destruct (a =? Z.of_nat m)%Z eqn:E.
      - apply Z.eqb_eq in E. subst a. rewrite Nat2Z.id.
        match goal with |- (if ?b then _ else _) = _ => replace b with true by lia end. reflexivity.
      - apply Z.eqb_neq in E.
        pose proof (hour_month_other h m (Z.to_nat a) H ltac:(lia) ltac:(lia)) as O.
        match goal with |- (if ?b then _ else _) = _ => replace b with false by lia end. reflexivity. }
    rewrite N1.
    destruct (a =? Z.of_nat m)%Z eqn:E.
    + apply Z.eqb_eq in E.
      replace ((a + 1 <=? Z.of_nat m) && (Z.of_nat m <? a + 1 + Z.of_nat n))%Z%bool with false by lia.
      replace ((a <=? Z.of_nat m) && (Z.of_nat m <? a + 1 + Z.of_nat n))%Z%bool with true by lia. reflexivity.
    + apply Z.eqb_neq in E.
      replace (a <=? Z.of_nat m)%Z with (a + 1 <=? Z.of_nat m)%Z by lia. reflexivity.
Qed.

(** All the seasons of a chain starting at month [a]. *)
Lemma fill_seasons_ok disc Fd Fe : forall ss a u,
  (0 <= a)%Z -> chain a ss -> (chain_end a ss <= 12)%Z ->
  Z.of_nat (length (ut_chart u)) = 8760%Z -> maps_are disc u a Fd Fe ->
  (forall s m, In s ss -> (se_start s <= m < se_end s)%Z ->
     Fd m = sel3 (se_off_demand s) (se_pk_demand s) (se_dc_demand s) /\
     Fe m = sel3 (se_off_energy s) (se_pk_energy s) (se_dc_energy s)) ->
  let u' := fold_left (fun u s => fill_period_maps u s disc (npk disc)) ss u in
  length (ut_chart u') = length (ut_chart u) /\
  maps_are disc u' (chain_end a ss) Fd Fe /\
  ut_base u' = ut_base u /\ ut_by_hour u' = ut_by_hour u /\ ut_include_discount u' = ut_include_discount u /\
  (forall h m, hour_month h m -> (Z.of_nat m < a)%Z ->
     nth (Z.to_nat h) (ut_chart u') 0%Z = nth (Z.to_nat h) (ut_chart u) 0%Z) /\
  (forall h m s, hour_month h m -> In s ss -> (se_start s <= Z.of_nat m < se_end s)%Z ->
     nth (Z.to_nat h) (ut_chart u') 0%Z = period_of_hour s disc (npk disc) (Z.of_nat m) h).
Proof.
  assert (CE : forall ss a, chain a ss -> (a <= chain_end a ss)%Z).
  { induction ss as [|s ss IH]; intros a C; cbn [chain chain_end] in *; [lia|].
    destruct C as (_ & C1 & C2). specialize (IH _ C2). lia. }
  induction ss as [|s ss IH]; intros a u Ha C E12 L M F; cbv zeta.
  - cbn [fold_left chain_end]. split; [reflexivity|]. split; [exact M|]. do 3 (split; [reflexivity|]).
    split; [reflexivity|]. intros h m s _ [].
  - cbn [fold_left chain_end chain] in *. destruct C as (C0 & C1 & C2). subst a.
    pose proof (CE _ _ C2) as CE2.
    set (n := Z.to_nat (se_end s - se_start s)).
    assert (EN : (se_start s + Z.of_nat n)%Z = se_end s) by (unfold n; lia).
    set (u1 := fold_left (fill_month_maps s disc (npk disc)) (zrange (se_start s) (se_end s)) u).
    set (u2 := fill_period_maps u s disc (npk disc)).
    assert (U2 : u2 = fold_left (fill_month_chart s disc (npk disc)) (zrange (se_start s) (se_end s)) u1) by reflexivity.
    destruct (fill_maps_chart s disc (npk disc) (zrange (se_start s) (se_end s)) u) as (G1 & G2 & G3 & G4). fold u1 in G1, G2, G3, G4.
    destruct (fill_chart_maps s disc (npk disc) (zrange (se_start s) (se_end s)) u1) as (K1 & K2 & K3 & K4 & K5 & K6 & K7).
    rewrite <- U2 in K1, K2, K3, K4, K5, K6, K7.
    assert (M2 : maps_are disc u2 (se_end s) Fd Fe).
    { unfold maps_are. rewrite K1, K2, K3, K4. rewrite <- EN. unfold u1. rewrite <- EN at 1 2 3 4.
      apply (fill_maps_ok s disc Fd Fe n (se_start s) u Ha M).
      intros m Hm. apply (F s m (or_introl eq_refl)). lia. }
    assert (CH : forall h m, hour_month h m ->
      length (ut_chart u2) = length (ut_chart u) /\
      nth (Z.to_nat h) (ut_chart u2) 0%Z =
      if ((se_start s <=? Z.of_nat m) && (Z.of_nat m <? se_end s))%Z%bool
      then period_of_hour s disc (npk disc) (Z.of_nat m) h else nth (Z.to_nat h) (ut_chart u) 0%Z).
    { intros h m H. destruct (fill_chart_ok s disc (npk disc) n (se_start s) u1 h m Ha) as [A B];
        [lia|rewrite G1; exact L|exact H|].
      cbv zeta in A, B. rewrite EN, <- U2 in A, B. rewrite G1 in A, B. auto. }
    assert (L2 : length (ut_chart u2) = length (ut_chart u)).
    { destruct (hour_month_ex 0 ltac:(lia)) as (m & H). apply (CH 0%Z m H). }
    destruct (IH (se_end s) u2) as (A1 & A2 & A3 & A4 & A5 & A6 & A7); [lia|exact C2|exact E12|rewrite L2; exact L|exact M2| |].
    { intros s' m Hs Hm. apply F; [right; exact Hs|exact Hm]. }
    cbv zeta in *. split; [congruence|]. split; [exact A2|]. split; [congruence|]. split; [congruence|].
    split; [congruence|]. split.
    + intros h m H Hm. rewrite (A6 h m H) by lia. destruct (CH h m H) as [_ ->].
      match goal with |- (if ?b then _ else _) = _ => replace b with false by lia end. reflexivity.
    + intros h m s' H [->|Hs] Hm.
      * rewrite (A6 h m H) by lia. destruct (CH h m H) as [_ ->].
        match goal with |- (if ?b then _ else _) = _ => replace b with true by lia end. reflexivity.
      * apply A7; assumption.
Qed.
