(** Lemmas for the location argument (C64). *)
From Coq Require Import Ascii.
From Verif Require Import Prelude M_StratifiedTank M_MixedTank M_EnergyTank M_Building L_Building M_Heater M_Sizing S_Sizing L_Sizing3
  M_SimRun M_Step M_Swing M_MPRTP M_Engine S_Engine S_Location L_Engine2 L_Engine4.
Open Scope Q_scope.

(** ** Characters *)

Lemma digit_spec c : is_digit c = true <-> digit c.
Proof.
  unfold digit. destruct c as [[] [] [] [] [] [] [] []]; split; intro H; try (vm_compute in H; discriminate); try reflexivity; try (vm_compute; tauto);
    vm_compute in H; intuition discriminate.
Qed.
Lemma blank_spec c : is_space c = true <-> blank c.
Proof.
  unfold blank. destruct c as [[] [] [] [] [] [] [] []]; split; intro H; try (vm_compute in H; discriminate); try reflexivity; try (vm_compute; tauto);
    vm_compute in H; intuition discriminate.
Qed.

Lemma zip_spec s : (isdigit s && (String.length s =? 5)%nat)%bool = true <-> zip_code s.
Proof.
  split.
  - intro H. apply andb_true_iff in H. destruct H as [H L]. apply Nat.eqb_eq in L.
    destruct s as [|a [|b [|c [|d [|e [|f s]]]]]]; try discriminate. cbn in H. rewrite !andb_true_iff, !digit_spec in H.
    exists a, b, c, d, e. split; [|reflexivity]. repeat (apply Forall_cons; [tauto|]). apply Forall_nil.
  - intros (a & b & c & d & e & F & ->). inversion F as [|? ? H1 F1]; subst. inversion F1 as [|? ? H2 F2]; subst. inversion F2 as [|? ? H3 F3]; subst.
    inversion F3 as [|? ? H4 F4]; subst. inversion F4 as [|? ? H5 F5]; subst. cbn. rewrite !andb_true_iff, !digit_spec. tauto.
Qed.

(** ** strip *)

Lemma app_nil_r_s s : (s ++ "")%string = s.
Proof. induction s; cbn; congruence. Qed.
Lemma app_assoc_s a b c : ((a ++ b) ++ c)%string = (a ++ b ++ c)%string.
Proof. induction a; cbn; congruence. Qed.

Lemma lstrip_spec s : exists a, blanks a /\ s = (a ++ lstrip s)%string /\ forall c r, lstrip s = String c r -> ~ blank c.
Proof.
  induction s as [|c s IH]; cbn; [exists EmptyString; repeat split; discriminate|].
  destruct (is_space c) eqn:E.
  - destruct IH as (a & B & S & N). exists (String c a). cbn. apply blank_spec in E. repeat split; [exact E|exact B|congruence|exact N].
  - exists EmptyString. cbn. repeat split. intros x r H. injection H as -> ->. intro C. apply blank_spec in C. congruence.
Qed.
Lemma rstrip_spec s : exists b, blanks b /\ s = (rstrip s ++ b)%string /\ forall c r, rstrip s = (r ++ String c EmptyString)%string -> ~ blank c.
Proof.
  induction s as [|c s IH]; cbn; [exists EmptyString; repeat split; intros c []; discriminate|].
  destruct IH as (b & B & S & N). destruct (rstrip s) as [|x r] eqn:ER.
  - cbn in S. subst b. destruct (is_space c) eqn:E.
    + exists (String c s). cbn. apply blank_spec in E. repeat split; [exact E|exact B|intros y []; discriminate].
    + exists s. repeat split; [exact B|]. intros y [|y' r'] H; [injection H as ->; intro C; apply blank_spec in C; congruence|]. destruct r'; discriminate.
  - exists b. repeat split; [exact B|cbn; rewrite S; reflexivity|]. intros y [|y' r'] H; [discriminate|]. injection H as _ H. exact (N _ _ H).
Qed.

Lemma lstrip_suffix s : forall c r, lstrip s = (r ++ String c EmptyString)%string -> exists r', s = (r' ++ String c EmptyString)%string.
Proof.
  intros c r H. destruct (lstrip_spec s) as (a & _ & S & _). exists (a ++ r)%string. rewrite app_assoc_s, <- H. exact S.
Qed.

Lemma strip_trim s : trim s (strip s).
Proof.
  unfold strip. destruct (rstrip_spec s) as (b & B & S & N). destruct (lstrip_spec (rstrip s)) as (a & A & S2 & N2). split.
  - split; [exact N2|]. intros c r H. destruct (lstrip_suffix _ _ _ H) as [r' H']. exact (N _ _ H').
  - exists a, b. split; [exact A|]. split; [exact B|]. rewrite <- app_assoc_s, <- S2. exact S.
Qed.

Lemma strip_all a : blanks a -> rstrip a = EmptyString.
Proof. induction a as [|c a IH]; cbn; [reflexivity|]. intros [H B]. rewrite (IH B). apply blank_spec in H. rewrite H. reflexivity. Qed.

Lemma last_char t : t = EmptyString \/ exists r c, t = (r ++ String c EmptyString)%string.
Proof. induction t as [|c t [->|(r & x & ->)]]; [auto|right; exists EmptyString, c; reflexivity|right; exists (String c r), x; reflexivity]. Qed.

Lemma last_unique r r' c c' : (r ++ String c EmptyString)%string = (r' ++ String c' EmptyString)%string -> r = r' /\ c = c'.
Proof.
  revert r'. induction r as [|x r IH]; intros [|x' r'] H; cbn in H.
  - injection H as ->. auto.
  - destruct r'; discriminate.
  - destruct r; discriminate.
  - injection H as -> H. destruct (IH _ H) as [-> ->]. auto.
Qed.

Lemma rstrip_id t b : blanks b -> (forall c r, t = (r ++ String c EmptyString)%string -> ~ blank c) -> rstrip (t ++ b)%string = t.
Proof.
  intros B. induction t as [|c t IH]; cbn; intro N; [exact (strip_all _ B)|].
  destruct t as [|x t].
  - cbn. rewrite (strip_all _ B). destruct (is_space c) eqn:E; [|reflexivity]. apply blank_spec in E. exfalso. exact (N c EmptyString eq_refl E).
  - rewrite IH; [reflexivity|]. intros y r H. apply (N y (String c r)). cbn. rewrite H. reflexivity.
Qed.

Lemma trim_strip s t : trim s t -> strip s = t.
Proof.
  intros ((N1 & N2) & a & b & A & B & ->). unfold strip. destruct t as [|c t].
  - cbn. assert (R : rstrip (a ++ b) = EmptyString).
    { apply strip_all. clear - A B. induction a as [|x a IH]; cbn in *; [exact B|]. tauto. }
    rewrite R. reflexivity.
  - rewrite <- app_assoc_s, (rstrip_id (a ++ String c t) b B).
    + clear N2 B b. induction a as [|x a IH]; cbn in *.
      * destruct (is_space c) eqn:E; [|reflexivity]. apply blank_spec in E. exfalso. exact (N1 c t eq_refl E).
      * destruct A as [X A]. apply blank_spec in X. rewrite X. exact (IH A).
    + intros y r H. destruct (last_char (String c t)) as [|(r' & z & E)]; [discriminate|].
      rewrite E in H. rewrite <- app_assoc_s in H. destruct (last_unique _ _ _ _ H) as [_ <-]. exact (N2 _ _ E).
Qed.

(** ** Lookups *)

Lemma lookup_in t k z : cz_lookup t k = Ok z -> In (k, z) t.
Proof.
  induction t as [|[k' z'] t IH]; cbn; [discriminate|]. destruct (String.eqb k' k) eqn:E; [|intro H; right; exact (IH H)].
  apply String.eqb_eq in E. subst k'. intro H. apply ok_inj in H. subst z'. auto.
Qed.
Lemma lookup_of t k z : NoDup (map fst t) -> In (k, z) t -> cz_lookup t k = Ok z.
Proof.
  induction t as [|[k' z'] t IH]; cbn; [intros _ []|]. intros N [E|I].
  - injection E as -> ->. rewrite String.eqb_refl. reflexivity.
  - inversion N as [|x l NI N']; subst. destruct (String.eqb k' k) eqn:E; [|exact (IH N' I)].
    apply String.eqb_eq in E. subst k'. exfalso. apply NI. change k with (fst (k, z)). apply in_map. exact I.
Qed.
Lemma lookup_err t k e : cz_lookup t k = Err e -> e = ValueError /\ forall z, ~ In (k, z) t.
Proof.
  induction t as [|[k' z'] t IH]; cbn; [intro H; injection H as <-; auto|]. destruct (String.eqb k' k) eqn:E; [discriminate|].
  intro H. destruct (IH H) as [-> N]. split; [reflexivity|]. intros z [F|I]; [injection F as -> _; rewrite String.eqb_refl in E; discriminate|exact (N z I)].
Qed.

Lemma py_nth_nn {A} (l : list A) i : (0 <= i)%Z -> py_nth l i = match nth_error l (Z.to_nat i) with Some x => Ok x | None => Err IndexError end.
Proof.
  intro I. unfold py_nth. cbv zeta. replace (i <? 0)%Z with false by (symmetry; apply Z.ltb_ge; exact I).
  replace (i <? 0)%Z with false by (symmetry; apply Z.ltb_ge; exact I). cbn [orb].
  destruct (Z.of_nat (length l) <=? i)%Z eqn:E; [|reflexivity]. apply Z.leb_le in E.
  rewrite (proj2 (nth_error_None l (Z.to_nat i))) by lia. reflexivity.
Qed.
Lemma column_of rows z l : (1 <= z)%Z -> (cz_load_column rows z = Ok l <-> zone_column rows z l).
Proof.
  intro Z1. unfold cz_load_column, zone_column. revert l. induction rows as [|row rows IH]; intro l; cbn.
  - split; [intro H; apply ok_inj in H; subst; constructor|intro H; inversion H; reflexivity].
  - rewrite (py_nth_nn row (z - 1)) by lia. destruct (nth_error row (Z.to_nat (z - 1))) as [x|] eqn:E.
    + cbn. split.
      * intro H. destruct (bind_ok _ _ _ H) as (r & E1 & H1). apply ok_inj in H1. subst l. constructor; [exact E|]. apply IH. exact E1.
      * intro H. inversion H as [|a b c d F1 F2]; subst. assert (b = x) by congruence. subst b. rewrite (proj2 (IH d) F2). reflexivity.
    + cbn. split; [discriminate|]. intro H. inversion H; subst. congruence.
Qed.
Lemma column_total rows z : (1 <= z <= 96)%Z -> columns96 rows -> exists l, zone_column rows z l.
Proof.
  intros Z1 C. induction C as [|row rows L C (l & IH)]; [exists []; constructor|].
  destruct (nth_error row (Z.to_nat (z - 1))) as [x|] eqn:E; [|apply nth_error_None in E; lia]. exists (x :: l). constructor; assumption.
Qed.

Lemma zone_of dt z c : (1 <= z)%Z -> (cz_from_zone (da_oat dt) (da_inlet dt) z = Ok c <-> zone_weather dt z c).
Proof.
  intro Z1. unfold cz_from_zone, zone_weather. split.
  - intro H. destruct (bind_ok _ _ _ H) as (o & E1 & H1). destruct (bind_ok _ _ _ H1) as (i & E2 & H2). apply ok_inj in H2. subst c.
    split; [exact Z1|]. exists o, i. rewrite <- !column_of by exact Z1. auto.
  - intros (_ & o & i & E1 & E2 & ->). apply column_of in E1; [|exact Z1]. apply column_of in E2; [|exact Z1]. rewrite E1. cbn [bind]. rewrite E2. reflexivity.
Qed.
Lemma zone_total dt z : (1 <= z <= 96)%Z -> columns96 (da_oat dt) -> columns96 (da_inlet dt) -> exists c, cz_from_zone (da_oat dt) (da_inlet dt) z = Ok c.
Proof.
  intros Z1 C1 C2. destruct (column_total _ _ Z1 C1) as [o O]. destruct (column_total _ _ Z1 C2) as [i I].
  exists (mkClimate (Some o) (Some i) None None). apply zone_of; [lia|]. split; [lia|]. exists o, i. auto.
Qed.

Lemma dict_get_in {A} (d : list (string * A)) k v : NoDup (map fst d) -> (dict_get d k = Some v <-> In (k, v) d).
Proof.
  induction d as [|[k' v'] d IH]; cbn; [split; [discriminate|intros []]|]. intro N. inversion N as [|x l NI N']; subst.
  destruct (String.eqb k k') eqn:E.
  - apply String.eqb_eq in E. subst k'. split; [intro H; injection H as ->; auto|]. intros [H|I]; [injection H as ->; reflexivity|].
    exfalso. apply NI. change k with (fst (k, v)). apply in_map. exact I.
  - apply String.eqb_neq in E. rewrite (IH N'). split; [auto|]. intros [H|I]; [congruence|exact I].
Qed.
Lemma dict_get_none {A} (d : list (string * A)) k : dict_get d k = None <-> forall v, ~ In (k, v) d.
Proof.
  induction d as [|[k' v'] d IH]; cbn; [split; auto|]. destruct (String.eqb k k') eqn:E.
  - apply String.eqb_eq in E. subst k'. split; [discriminate|]. intro H. exfalso. apply (H v'). auto.
  - apply String.eqb_neq in E. rewrite IH. split; intros H v; [intros [F|I]; [congruence|exact (H v I)]|intro I; apply (H v); auto].
Qed.
Lemma keyword_of d k v : NoDup (map fst d) ->
  (match dict_get d k with Some (Some x) => Some x | _ => None end = v <-> keyword d k v).
Proof.
  intro N. unfold keyword. destruct (dict_get d k) as [w|] eqn:E.
  - assert (I : In (k, w) d) by (apply dict_get_in; assumption). split.
    + intros <-. left. destruct w; exact I.
    + intros [H|[_ H]]; [|exfalso; exact (H _ I)]. apply dict_get_in in H; [|exact N]. assert (w = v) by congruence. subst w. destruct v; reflexivity.
  - pose proof (proj1 (dict_get_none d k) E) as E'. split; [intros <-; auto|]. intros [H|[-> _]]; [exfalso; exact (E' _ H)|reflexivity].
Qed.
Lemma keys_of {A} (d : list (string * A)) : forallb (fun kv => mem (fst kv) ["design_oat_f"; "design_inlet_water_temp_f"]%string) d = true <->
  forall k v, In (k, v) d -> k = "design_oat_f"%string \/ k = "design_inlet_water_temp_f"%string.
Proof.
  rewrite forallb_forall. split.
  - intros H k v I. specialize (H _ I). cbn [fst] in H. apply mem_in in H. destruct H as [H|[H|[]]]; auto.
  - intros H [k v] I. apply mem_in. cbn [fst]. destruct (H k v I) as [-> | ->]; cbn; auto.
Qed.

(** ** The climate *)

Lemma climate_site dt v c : tables_sound dt -> argument v -> (eng_climate dt v = Ok c <-> site dt v c).
Proof.
  intros ((NZ & TZ) & (NS & TS) & CO & CI) A. split.
  - unfold argument in A. destruct v as [d|s|z|]; cbn [eng_climate].
    + unfold cz_from_dict. destruct (forallb _ d) eqn:K; [|discriminate]. intro H. apply ok_inj in H. subst c. unfold cz_from_design.
      apply site_design; [exact A|apply keys_of; exact K|apply keyword_of; [exact A|reflexivity]|apply keyword_of; [exact A|reflexivity]].
    + destruct (isdigit s && (String.length s =? 5)%nat)%bool eqn:Z; unfold cz_from_key; intro H; destruct (bind_ok _ _ _ H) as (z & E & H1); apply lookup_in in E.
      * apply zip_spec in Z. apply (site_zip dt s z c Z E). apply zone_of; [exact (proj1 (TZ _ _ E))|exact H1].
      * apply (site_station dt s (strip s) z c); [intro C; apply zip_spec in C; congruence|apply strip_trim|exact E|apply zone_of; [exact (proj1 (TS _ _ E))|exact H1]].
    + destruct ((1 <=? z) && (z <=? 96))%Z eqn:Z; [|discriminate]. apply andb_true_iff in Z. destruct Z as [Z1 Z2]. apply Z.leb_le in Z1, Z2.
      intro H. apply site_zone; [exact Z2|]. apply zone_of; assumption.
    + discriminate.
  - intro H. destruct H as [d oat inlet N K K1 K2|s z c Z I W|s t z c Z T I W|z c Z W]; cbn [eng_climate].
    + unfold cz_from_dict. rewrite (proj2 (keys_of d) K). apply keyword_of in K1; [|exact N]. apply keyword_of in K2; [|exact N]. rewrite K1, K2. reflexivity.
    + rewrite (proj2 (zip_spec s) Z). unfold cz_from_key. rewrite (lookup_of _ _ _ NZ I). cbn [bind]. apply zone_of; [exact (proj1 (TZ _ _ I))|exact W].
    + destruct (isdigit s && (String.length s =? 5)%nat)%bool eqn:E; [apply zip_spec in E; contradiction|]. rewrite (trim_strip _ _ T). unfold cz_from_key. rewrite (lookup_of _ _ _ NS I). cbn [bind].
      apply zone_of; [exact (proj1 (TS _ _ I))|exact W].
    + pose proof (proj1 W) as Z1. rewrite (proj2 (Z.leb_le _ _) Z1), (proj2 (Z.leb_le _ _) Z). cbn [andb]. apply zone_of; assumption.
Qed.

Lemma climate_err dt v x : tables_sound dt -> eng_climate dt v = Err x ->
  x = ValueError \/ (x = TypeError /\ exists d, v = CzDict d /\ exists k w, In (k, w) d /\ k <> "design_oat_f"%string /\ k <> "design_inlet_water_temp_f"%string).
Proof.
  intros ((NZ & TZ) & (NS & TS) & CO & CI). destruct v as [d|s|z|]; cbn [eng_climate].
  - unfold cz_from_dict. destruct (forallb _ d) eqn:K; [discriminate|]. intro H. injection H as <-. right. split; [reflexivity|]. exists d. split; [reflexivity|].
    destruct (existsb (fun kv => negb (mem (fst kv) ["design_oat_f"; "design_inlet_water_temp_f"]%string)) d) eqn:X.
    + apply existsb_exists in X. destruct X as ([k w] & I & M). cbn [fst] in M. exists k, w. split; [exact I|]. apply negb_true_iff in M.
      split; intros ->; vm_compute in M; discriminate.
    + exfalso. rewrite <- not_true_iff_false in K. apply K. apply forallb_forall. intros kv I. destruct (mem (fst kv) _) eqn:M; [reflexivity|].
      rewrite <- not_true_iff_false in X. exfalso. apply X. apply existsb_exists. exists kv. rewrite M. auto.
  - unfold cz_from_key. intro H. left. destruct (isdigit s && (String.length s =? 5)%nat)%bool.
    + destruct (cz_lookup (da_zips dt) s) as [z|y] eqn:L; cbn [bind] in H; [|injection H as <-; exact (proj1 (lookup_err _ _ _ L))].
      destruct (zone_total dt z (TZ _ _ (lookup_in _ _ _ L)) CO CI) as [c E]. congruence.
    + destruct (cz_lookup (da_stations dt) (strip s)) as [z|y] eqn:L; cbn [bind] in H; [|injection H as <-; exact (proj1 (lookup_err _ _ _ L))].
      destruct (zone_total dt z (TS _ _ (lookup_in _ _ _ L)) CO CI) as [c E]. congruence.
  - destruct ((1 <=? z) && (z <=? 96))%Z eqn:Z; intro H; [|injection H as <-; auto]. apply andb_true_iff in Z. destruct Z as [Z1 Z2]. apply Z.leb_le in Z1, Z2.
    destruct (zone_total dt z (conj Z1 Z2) CO CI) as [c E]. congruence.
  - intro H. injection H as <-. auto.
Qed.

(** ** The building keeps its climate *)

Lemma built_climate dt p b : eng_building dt p = Ok b -> exists c, eng_climate dt (ep_cz p) = Ok c /\ bd_climate b = Some c.
Proof.
  unfold eng_building. intro H. destruct (bind_ok _ _ _ H) as (c & E & H1). exists c. split; [exact E|]. unfold from_building_type in H1. cbv zeta in H1.
  match type of H1 with (match ?x with One _ => _ | Many _ => _ end) = _ => destruct x as [t|tys] end.
  - destruct (bind_ok _ _ _ H1) as (cp & _ & H2). destruct (bind_ok _ _ _ H2) as (ca & _ & H3). destruct (bind_ok _ _ _ H3) as (m & _ & H4).
    destruct (bind_ok _ _ _ H4) as ([[g q] a] & _ & H5). apply ok_inj in H5. subst b. reflexivity.
  - unfold from_multi_use in H1. cbv zeta in H1. match type of H1 with (match ?x with One _ => _ | Many _ => _ end) = _ => destruct x as [|ms]; [discriminate|] end.
    destruct (negb _); [discriminate|]. destruct (bind_ok _ _ _ H1) as (cp & _ & H2). destruct (bind_ok _ _ _ H2) as (ca & _ & H3). destruct (bind_ok _ _ _ H3) as (m & _ & H4).
    destruct m; [discriminate|]. destruct (bind_ok _ _ _ H4) as (x1 & _ & H5). destruct (bind_ok _ _ _ H5) as (x2 & _ & H6). destruct (bind_ok _ _ _ H6) as (x3 & _ & H7). destruct (bind_ok _ _ _ H7) as (x4 & _ & H8).
    apply ok_inj in H8. subst b. reflexivity.
Qed.

Lemma set_daily_climate lib b b1 : bd_set_daily lib b = Ok b1 -> bd_climate b1 = bd_climate b /\ bd_daily b1 = bd_daily b.
Proof.
  unfold bd_set_daily. destruct (negb _); [discriminate|]. intro H. destruct (bind_ok _ _ _ H) as (f & _ & H1). destruct (sf_stream_avg f); [|discriminate].
  apply ok_inj in H1. subst b1. auto.
Qed.
Lemma set_annual_climate lib b b1 : bd_set_annual lib b = Ok b1 -> bd_climate b1 = bd_climate b /\ bd_daily b1 = bd_daily b.
Proof.
  unfold bd_set_annual. destruct (negb _); [discriminate|]. intro H. destruct (bind_ok _ _ _ H) as (f & _ & H1). destruct (sf_annual f); [|discriminate].
  apply ok_inj in H1. subst b1. auto.
Qed.

(** ** Sizing keeps the climate and the daily use *)

Definition kept (b b' : building) : Prop := bd_climate b' = bd_climate b /\ bd_daily b' = bd_daily b.
Lemma kept_switch lib b b1 : (if bd_is_annual b then bd_set_daily lib b else Ok b) = Ok b1 -> kept b b1.
Proof. destruct (bd_is_annual b); [apply set_daily_climate|]. intro H. apply ok_inj in H. subst. split; reflexivity. Qed.
Lemma kept_trans b b1 b2 : kept b b1 -> kept b1 b2 -> kept b b2.
Proof. unfold kept. intuition congruence. Qed.

Lemma size_kept K lib s b sched m slope fract s' b' w : dhw_size K lib s b sched m slope fract = (s', b', Ok w) -> kept b b'.
Proof.
  unfold dhw_size. destruct (if bd_is_annual b then bd_set_daily lib b else Ok b) as [b1|x] eqn:E1; [|discriminate]. pose proof (kept_switch _ _ _ E1) as K1.
  destruct (size_try _ _ _ _ _ _ _) as [s2 [w2|y]]; [|discriminate]. destruct (bd_is_annual b).
  - destruct (bd_set_annual lib b1) as [b2|z] eqn:E2; [|discriminate]. intro H. apply pair_equal_spec in H. destruct H as [H _]. apply pair_equal_spec in H. destruct H as [_ <-].
    exact (kept_trans _ _ _ K1 (set_annual_climate _ _ _ E2)).
  - intro H. apply pair_equal_spec in H. destruct H as [H _]. apply pair_equal_spec in H. destruct H as [_ <-]. exact K1.
Qed.
Lemma swing_kept lib s b sched m slope fract s' b' w : swing_size lib s b sched m slope fract = (s', b', Ok w) -> kept b b'.
Proof.
  unfold swing_size. destruct (if bd_is_annual b then bd_set_daily lib b else Ok b) as [b1|x] eqn:E1; [|discriminate]. pose proof (kept_switch _ _ _ E1) as K1. cbv zeta.
  destruct (swing_size_try _ _ _ _ _ _) as [s2 [w2|y]]; [|discriminate]. destruct (bd_is_annual b).
  - destruct (bd_set_annual lib b1) as [b2|z] eqn:E2; [|discriminate]. intro H. apply pair_equal_spec in H. destruct H as [H _]. apply pair_equal_spec in H. destruct H as [_ <-].
    exact (kept_trans _ _ _ K1 (set_annual_climate _ _ _ E2)).
  - intro H. apply pair_equal_spec in H. destruct H as [H _]. apply pair_equal_spec in H. destruct H as [_ <-]. exact K1.
Qed.
Lemma mp_kept ret flow lib s b m slope s' b' w : mp_size ret flow lib s b m slope = (s', b', Ok w) -> kept b b'.
Proof.
  unfold mp_size. destruct (is_load_shifting m); [discriminate|]. destruct (if bd_is_annual b then bd_set_daily lib b else Ok b) as [b1|x] eqn:E1; [|discriminate].
  pose proof (kept_switch _ _ _ E1) as K1. destruct (mp_size_values ret flow s b1 m slope) as [[c v]|y]; unfold restore_annual; destruct (bd_is_annual b); try discriminate.
  - destruct (bd_set_annual lib b1) as [b2|z] eqn:E2; [|discriminate]. intro H. apply pair_equal_spec in H. destruct H as [H _]. apply pair_equal_spec in H. destruct H as [_ <-].
    exact (kept_trans _ _ _ K1 (set_annual_climate _ _ _ E2)).
  - intro H. apply pair_equal_spec in H. destruct H as [H _]. apply pair_equal_spec in H. destruct H as [_ <-]. exact K1.
  - destruct (bd_set_annual lib b1); discriminate.
Qed.

Lemma sized_kept dt p b b' s : eng_sized dt p b = Ok (b', s) -> kept b b'.
Proof.
  unfold eng_sized. intro H. destruct (bind_ok _ _ _ H) as ([sched m] & EC & H1). clear H. destruct (bind_ok _ _ _ H1) as (fract & EF & H). clear H1.
  cbv zeta in H. destruct (kind_of (ep_schematic p)) as [[]|] eqn:EK; [| | | | | |discriminate].
  - unfold fs_primary in H. destruct (dhw_size _ _ _ _ _ _ _ _) as [[d b1] out] eqn:ES.
    destruct (bind_ok _ _ _ H) as (w & -> & H1). destruct (bind_ok _ _ _ H1) as (x & EP & H2). apply ok_inj in H2. apply pair_equal_spec in H2. destruct H2 as [<- <-].
    exact (size_kept _ _ _ _ _ _ _ _ _ _ _ ES).
  - destruct (bind_ok _ _ _ H) as ([r f] & ER & H0). clear H. cbn [fst snd] in H0. unfold fs_parallel in H0. cbv zeta in H0. destruct (pl_size _ _ _ _ _ _ _) as [[l b1] out] eqn:ES.
    destruct (bind_ok _ _ _ H0) as ([] & -> & H1). clear H0. destruct (bind_ok _ _ _ H1) as (x & EP & H2). clear H1.
    unfold pl_size in ES. destruct (pl_validate _) as [u|e]; [|apply pair_equal_spec in ES; destruct ES; discriminate]. cbn [pl_dhw] in ES.
    destruct (dhw_size _ _ _ _ _ _ _ _) as [[d b2] o2] eqn:ED. cbv zeta in ES. destruct o2 as [w|e]; [|apply pair_equal_spec in ES; destruct ES; discriminate].
    destruct (pl_size_tm _) as [p2|e] eqn:ET; [|apply pair_equal_spec in ES; destruct ES; discriminate].
    apply pair_equal_spec in ES. destruct ES as [ES _]. apply pair_equal_spec in ES. destruct ES as [-> ->].
    destruct (pl_tm_vol l) as [tv|]; [|discriminate]. destruct (pl_tm_cap l) as [tc|]; [|discriminate].
    destruct (bind_ok _ _ _ H2) as (ps & _ & H3). apply ok_inj in H3. apply pair_equal_spec in H3. destruct H3 as [<- _].
    exact (size_kept _ _ _ _ _ _ _ _ _ _ _ ED).
  - destruct (bind_ok _ _ _ H) as ([r f] & ER & H0). clear H. cbn [fst snd] in H0. unfold fs_swing in H0. destruct (bind_ok _ _ _ H0) as (w0 & EW & H1). clear H0.
    destruct (swing_size _ _ _ _ _ _ _) as [[w b1] out] eqn:ES. destruct (bind_ok _ _ _ H1) as ([] & -> & H2). clear H1.
    destruct (dh_min_cap (sw_dhw w)) as [c|] eqn:A; [|discriminate]. destruct (dh_min_stor (sw_dhw w)) as [v|] eqn:B; [|discriminate].
    destruct (sw_tm_vol w) as [tv|] eqn:TV; [|discriminate]. apply ok_inj in H2. apply pair_equal_spec in H2. destruct H2 as [<- _].
    exact (swing_kept _ _ _ _ _ _ _ _ _ _ ES).
  - destruct (bind_ok _ _ _ H) as ([r f] & ER & H0). clear H. cbn [fst snd] in H0. unfold fs_sprtp, sprtp_size in H0. destruct (dhw_size _ _ _ _ _ _ _ _) as [[d b1] out] eqn:ES.
    destruct (bind_ok _ _ _ H0) as (rc & ERC & H1). clear H0. destruct (bind_ok _ _ _ ERC) as (w & -> & _). clear ERC.
    destruct (bind_ok _ _ _ H1) as (x & EP & H2). apply ok_inj in H2. apply pair_equal_spec in H2. destruct H2 as [<- _].
    exact (size_kept _ _ _ _ _ _ _ _ _ _ _ ES).
  - destruct (bind_ok _ _ _ H) as ([r f] & ER & H0). clear H. cbn [fst snd] in H0.
    destruct (mp_from_size _ _ _ _ _ _ _ _ _ _ _ _ _ _) as [b1 out] eqn:ES. destruct (bind_ok _ _ _ H0) as (x & -> & H1). clear H0.
    apply ok_inj in H1. apply pair_equal_spec in H1. destruct H1 as [<- _]. unfold mp_from_size in ES.
    destruct (negb (sensors_ok _ _)); [apply pair_equal_spec in ES; destruct ES; discriminate|].
    destruct (mp_size _ _ _ _ _ _ _) as [[s0 b2] o2] eqn:EM. apply pair_equal_spec in ES. destruct ES as [<- ES].
    destruct (bind_ok _ _ _ ES) as ([] & -> & _). exact (mp_kept _ _ _ _ _ _ _ _ _ _ EM).
  - unfold fs_instant in H. destruct (bind_ok _ _ _ H) as (d & ED & H1). apply ok_inj in H1. apply pair_equal_spec in H1. destruct H1 as [<- _]. split; reflexivity.
Qed.

Lemma new_kept dt p e : eng_new dt p = Ok e -> exists b, eng_building dt p = Ok b /\ kept b (en_building e).
Proof.
  intro H. destruct (new_inv _ _ _ H) as (b & sched & m & EB & _ & [(vol & hs & _ & _ & _ & -> & _)|(_ & ES & _)]); exists b; split; auto.
  - split; reflexivity.
  - exact (sized_kept _ _ _ _ _ ES).
Qed.
