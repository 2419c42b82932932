(** Lemmas for the figures of simulation runs (C69, C70). *)
From Coq Require Import Sorted.
From Verif Require Import Prelude M_StratifiedTank M_Building S_Building L_Heater L_Building M_Utility S_Utility L_Utility L_Utility2 M_Heater M_SimRun S_SimRun
  L_SimRun L_SimCost L_SimCost2 M_Plot S_Plot P_SimRun.
Open Scope Q_scope.

(** ** Stacked bars *)

Lemma filter_absent (x : string) (xs : list string) (ys : list Q) : ~ In x xs ->
  filter (fun e => String.eqb (fst e) x) (combine xs ys) = [].
Proof.
  revert ys. induction xs as [|a xs IH]; intros [|y ys] N; cbn; try reflexivity.
  destruct (String.eqb_spec a x) as [->|E]; [exfalso; apply N; left; reflexivity|]. apply IH. intro I. apply N. right. exact I.
Qed.

Lemma drawn_nth name xs ys k x : NoDup xs -> length ys = length xs -> nth_error xs k = Some x ->
  drawn_at x (mkBars name xs ys) == nth k ys 0.
Proof.
  unfold drawn_at. cbn [br_x br_y]. revert ys k. induction xs as [|a xs IH]; intros ys k ND L E; [destruct k; discriminate|].
  destruct ys as [|y ys]; [discriminate|]. inversion ND as [|? ? NI ND']; subst. cbn [combine filter fst].
  destruct k as [|k]; cbn [nth_error nth] in *.
  - injection E as ->. rewrite String.eqb_refl. cbn [map snd]. rewrite filter_absent by assumption. cbn. lra.
  - destruct (String.eqb_spec a x) as [->|N]; [exfalso; apply NI; exact (nth_error_In _ _ E)|]. apply IH; [assumption|injection L as ->; reflexivity|exact E].
Qed.

Lemma interleave_length l s : length (interleave l s) = (2 * length l)%nat.
Proof. unfold interleave. induction l as [|v l IH]; cbn; [reflexivity|]. destruct (s =? 0)%Z; cbn in *; lia. Qed.
Lemma interleave_even l s m : nth (2 * m) (interleave l s) 0 = if (s =? 0)%Z then nth m l 0 else 0.
Proof.
  unfold interleave. revert m. induction l as [|v l IH]; intro m; cbn [flat_map].
  - destruct (s =? 0)%Z; [destruct m; [reflexivity|]|]; destruct (2 * _)%nat; try reflexivity; destruct m; reflexivity.
  - destruct m as [|m]; [destruct (s =? 0)%Z; reflexivity|]. replace (2 * S m)%nat with (S (S (2 * m))) by lia.
    specialize (IH m). destruct (s =? 0)%Z; cbn [app nth]; exact IH.
Qed.
Lemma interleave_odd l s m : nth (2 * m + 1) (interleave l s) 0 = if (s =? 0)%Z then 0 else nth m l 0.
Proof.
  unfold interleave. revert m. induction l as [|v l IH]; intro m; cbn [flat_map].
  - destruct (s =? 0)%Z; [|destruct m; [reflexivity|]]; destruct (2 * _ + 1)%nat; try reflexivity; destruct m; reflexivity.
  - destruct m as [|m]; [destruct (s =? 0)%Z; reflexivity|]. replace (2 * S m + 1)%nat with (S (S (2 * m + 1))) by lia.
    specialize (IH m). destruct (s =? 0)%Z; cbn [app nth]; exact IH.
Qed.

Lemma labels_nodup : NoDup x_labels.
Proof.
  assert (B : forall l : list string, (fix nd (l : list string) := match l with [] => true | x :: r => (negb (existsb (String.eqb x) r) && nd r)%bool end) l = true -> NoDup l).
  { induction l as [|x l IH]; intro H; [constructor|]. apply andb_prop in H. destruct H as [H1 H2]. constructor; [|apply IH; exact H2].
    intro I. apply Bool.negb_true_iff in H1. assert (X : existsb (String.eqb x) l = true) by (apply existsb_exists; exists x; split; [exact I|apply String.eqb_refl]). congruence. }
  apply B. reflexivity.
Qed.
Lemma label_even m name : nth_error month_names m = Some name -> nth_error x_labels (2 * m) = Some name.
Proof. intro H. do 12 (destruct m as [|m]; [cbn in *; congruence|]). destruct m; discriminate. Qed.
Lemma label_odd m name : nth_error month_names m = Some name -> nth_error x_labels (2 * m + 1) = Some (name ++ " ")%string.
Proof. intro H. do 12 (destruct m as [|m]; [cbn in H; injection H as <-; reflexivity|]). destruct m; discriminate. Qed.

Lemma category_even label a b m name : length a = 12%nat -> length b = 12%nat -> nth_error month_names m = Some name ->
  qsum (map (drawn_at name) (category label a b)) == nth m a 0.
Proof.
  intros LA LB E. unfold category. cbn [map qsum fold_right]. apply label_even in E.
  rewrite (drawn_nth _ _ _ _ _ labels_nodup (eq_trans (interleave_length a 0) ltac:(rewrite LA; reflexivity)) E).
  rewrite (drawn_nth _ _ _ _ _ labels_nodup (eq_trans (interleave_length b 1) ltac:(rewrite LB; reflexivity)) E).
  rewrite !interleave_even. cbn [Z.eqb]. lra.
Qed.
Lemma category_odd label a b m name : length a = 12%nat -> length b = 12%nat -> nth_error month_names m = Some name ->
  qsum (map (drawn_at (name ++ " ")%string) (category label a b)) == nth m b 0.
Proof.
  intros LA LB E. unfold category. cbn [map qsum fold_right]. apply label_odd in E.
  rewrite (drawn_nth _ _ _ _ _ labels_nodup (eq_trans (interleave_length a 0) ltac:(rewrite LA; reflexivity)) E).
  rewrite (drawn_nth _ _ _ _ _ labels_nodup (eq_trans (interleave_length b 1) ltac:(rewrite LB; reflexivity)) E).
  rewrite !interleave_odd. cbn [Z.eqb]. lra.
Qed.

(** A run that can be billed has a detailed breakdown, whose months are the monthly bills. *)
Lemma detailed_months p r u c : from_params p = Ok u -> pr_pk_start p <> [] -> (0 < sr_iv r)%Z -> annual_cost r u = Ok c ->
  exists b, detailed_cost r u = Ok b /\
    length (bk_energy_peak b) = 12%nat /\ length (bk_energy_off b) = 12%nat /\
    length (bk_demand_peak b) = 12%nat /\ length (bk_demand_off b) = 12%nat /\
    (forall m, (m < 12)%nat -> month_bill r u m
       (ut_base u + nth m (bk_energy_peak b) 0 + nth m (bk_energy_off b) 0 + nth m (bk_demand_peak b) 0 + nth m (bk_demand_off b) 0)) /\
    qsum (map (fun m => ut_base u + nth m (bk_energy_peak b) 0 + nth m (bk_energy_off b) 0 + nth m (bk_demand_peak b) 0 + nth m (bk_demand_off b) 0) (seq 0 12)) == c.
Proof.
  intros H NE Hiv A. destruct (annual_inv r u c A) as (rate & per & d & R & Ed & C & _).
  destruct (detailed_ok p r u rate per d H NE Hiv R Ed C) as (b & E & EB & L1 & L2 & L3 & L4 & S1).
  destruct (detailed_total p r u c H NE Hiv A) as (b' & E' & V). assert (b' = b) by congruence. subst b'.
  exists b. split; [exact E|]. do 4 (split; [assumption|]). split.
  - intros m Hm. destruct (S1 m Hm) as (A1 & A2 & A3 & A4).
    exists rate, per, d, (map (charge_of u) d), (mon_of (sr_iv r)), (fun k => Z.to_nat (k / periods_per_month u)).
    split; [exact R|]. split; [rewrite Ed; apply (peak_list_ext _ (K_of r)); [intro i; apply K_billed|]; apply peaks_ok|].
    split; [apply charged_map; exact C|]. split; [exact (step_months_ok p u r rate per H Hiv R)|]. split.
    + intros i Hi. pose proof (proj1 (rates_looks r u rate per) R i Hi) as Li.
      destruct (period_month p u (sr_iv r) rate per i H NE Hiv Li) as (P1 & _). rewrite P1, Nat2Z.id. reflexivity.
    + rewrite A1, A2, A3, A4, charge_if_map. unfold sum_if.
      pose proof (split_if (seq 0 (length (sr_power r))) (fun i => Nat.eqb (mon_of (sr_iv r) i) m) (fun i => is_peak u (per i)) (energy_charge (billed_kw r) (step_hours r) rate)) as X1.
      pose proof (split_if d (fun e => Nat.eqb (Z.to_nat (fst e / periods_per_month u)) m) (fun e => is_peak u (fst e)) (charge_of u)) as X2.
      cbv beta in X1, X2. rewrite <- X1, <- X2. ring.
  - rewrite <- V, EB, (qsum_months _ L1), (qsum_months _ L2), (qsum_months _ L3), (qsum_months _ L4). cbn [seq map qsum fold_right]. ring.
Qed.

Lemma py_nth_ok {A} (l : list A) (i : nat) x : nth_error l i = Some x -> py_nth l (Z.of_nat i) = Ok x.
Proof. intro H. apply py_nth_nonneg; [lia|]. rewrite Nat2Z.id. exact H. Qed.
Lemma mode_dec (x y : option string) : {x = y} + {x <> y}.
Proof. decide equality. apply string_dec. Qed.

Lemma nth_error_firstn' {A} (l : list A) : forall k j, (j < k)%nat -> nth_error (firstn k l) j = nth_error l j.
Proof. induction l as [|x l IH]; intros [|k] [|j] H; cbn; try reflexivity; try lia. apply IH. lia. Qed.
Lemma qz_lt a b : qz a < qz b -> (a < b)%Z.
Proof. unfold qz, Qlt. cbn. lia. Qed.
Lemma qz_le a b : (a <= b)%Z -> qz a <= qz b.
Proof. unfold qz, Qle. cbn. lia. Qed.

(** ** Lines *)

Lemma step_times_length iv n : length (step_times iv n) = n.
Proof. unfold step_times. rewrite map_length, seq_length. reflexivity. Qed.
Lemma step_times_nth iv n i : (i < n)%nat -> nth_error (step_times iv n) i = Some (Z.of_nat i * iv)%Z.
Proof.
  intro H. unfold step_times. rewrite nth_error_map. rewrite (nth_error_nth' _ O) by (rewrite seq_length; exact H). cbn [option_map]. rewrite seq_nth by exact H. reflexivity.
Qed.

Lemma shows_map iv outs (f g : step_out -> Q) name row axis : (forall o, In o outs -> g o == f o) ->
  shows iv outs f (mkLine name row axis (step_times iv (length outs)) (map g outs)).
Proof.
  intro H. unfold shows. cbn [ln_x ln_y]. rewrite step_times_length, map_length. split; [reflexivity|]. split; [reflexivity|].
  intros i o E. split; [apply step_times_nth; apply nth_error_Some; congruence|]. exists (g o). rewrite nth_error_map, E. split; [reflexivity|]. apply H. exact (nth_error_In _ _ E).
Qed.

Lemma somes_all (outs : list step_out) (f : step_out -> option Q) : (forall o, In o outs -> f o <> None) ->
  somes (map f outs) = map (fun o => or0 (f o)) outs.
Proof.
  induction outs as [|o outs IH]; intro H; [reflexivity|]. cbn [map somes]. pose proof (H o (or_introl eq_refl)) as X.
  destruct (f o) as [x|] eqn:E; [|contradiction]. cbn [or0]. rewrite IH; [reflexivity|]. intros o' I. apply H. right. exact I.
Qed.
Lemma nodes_all (outs : list step_out) k : (forall o, In o outs -> (k < length (so_temps o))%nat) ->
  somes (map (fun o => nth_error (so_temps o) k) outs) = map (fun o => nth k (so_temps o) 0) outs.
Proof.
  intro H. rewrite (somes_all outs (fun o => nth_error (so_temps o) k)).
  - apply map_ext_in. intros o I. rewrite (nth_error_nth' _ 0 (H o I)). reflexivity.
  - intros o I E. apply nth_error_None in E. specialize (H o I). lia.
Qed.

Lemma gph_map supply outs : heater_gph supply (map so_output outs) (map so_inlet outs) =
  map (fun o => so_output o * 1000 / (rho_cp * qmax 1 (supply - so_inlet o))) outs.
Proof. unfold heater_gph. induction outs as [|o outs IH]; [reflexivity|]. cbn [map combine fst snd]. f_equal. exact IH. Qed.

(** ** Shading *)

Lemma run_length_spec m l : (run_length m l <= length l)%nat /\ (forall k, (k < run_length m l)%nat -> nth_error l k = Some m) /\
  nth_error l (run_length m l) <> Some m.
Proof.
  induction l as [|x l IH]; cbn [run_length]; [split; [lia|]; split; [intros; lia|discriminate]|]. destruct (String.eqb_spec x m) as [->|N].
  - destruct IH as (A & B & C). cbn [length]. split; [lia|]. split; [|exact C]. intros [|k] K; [reflexivity|]. cbn [nth_error]. apply B. lia.
  - split; [lia|]. split; [intros; lia|]. cbn. congruence.
Qed.

Lemma nth_error_skipn {A} (l : list A) : forall i k, nth_error (skipn i l) k = nth_error l (i + k).
Proof. induction l as [|x l IH]; intros [|i] k; cbn; try reflexivity; [destruct k; reflexivity|apply IH]. Qed.

Definition ls_text (m : string) : string := (if String.eqb m "shed" then "Shed" else "Load-Up")%string.

Lemma shades_spec modes iv N : (length modes <= N)%nat -> forall fuel i seen,
  (length modes - i <= fuel)%nat ->
  (forall m, nth_error modes i = Some m -> is_ls_mode m = true -> i = O \/ nth_error modes (i - 1) <> Some m) ->
  exists sh, shades fuel (step_times iv N) iv (skipn i modes) i seen = Ok sh /\
    (forall s, In s sh -> exists a b, (i <= a)%nat /\ is_ls_mode (sh_kind s) = true /\ whole_block modes (sh_kind s) a b /\
        sh_from s = (Z.of_nat a * iv)%Z /\ sh_to s = (Z.of_nat b * iv)%Z) /\
    (forall m a b, (i <= a)%nat -> is_ls_mode m = true -> whole_block modes m a b ->
        exists s, In s sh /\ sh_kind s = m /\ sh_from s = (Z.of_nat a * iv)%Z /\ sh_to s = (Z.of_nat b * iv)%Z) /\
    (forall k s, nth_error sh k = Some s -> sh_text s = (if (existsb (String.eqb (sh_kind s)) seen || existsb (fun s' => String.eqb (sh_kind s) (sh_kind s')) (firstn k sh))%bool then "" else ls_text (sh_kind s))%string) /\
    ((0 < iv)%Z -> StronglySorted (fun s s' => (sh_to s <= sh_from s')%Z) sh).
Proof.
  intro LN. induction fuel as [|fuel IH]; intros i seen LF INV.
  - assert (E : skipn i modes = []) by (apply skipn_all2; lia). rewrite E. exists []. split; [reflexivity|]. split; [intros s []|]. split.
    + intros m a b IA _ (AB & K & _). specialize (K a ltac:(lia)). assert (nth_error modes a = None) by (apply nth_error_None; lia). congruence.
    + split; [intros [|k]; discriminate|]. intro. constructor.
  - destruct (skipn i modes) as [|m r] eqn:E.
    + exists []. split; [destruct fuel; reflexivity|]. split; [intros s []|]. split.
      * intros m a b IA _ (AB & K & _). specialize (K a ltac:(lia)). pose proof (nth_error_skipn modes i (a - i)) as X. rewrite E in X. replace (i + (a - i))%nat with a in X by lia. destruct (a - i)%nat; cbn in X; congruence.
      * split; [intros [|k]; discriminate|]. intro. constructor.
    + assert (Ei : nth_error modes i = Some m) by (pose proof (nth_error_skipn modes i 0) as X; rewrite E in X; rewrite Nat.add_0_r in X; symmetry; exact X).
      assert (Li : (i < length modes)%nat) by (apply nth_error_Some; congruence).
      assert (ER : forall k, nth_error r k = nth_error modes (i + 1 + k)).
      { intro k. pose proof (nth_error_skipn modes i (S k)) as X. rewrite E in X. cbn [nth_error] in X. rewrite X. f_equal. lia. }
      assert (Lr : length r = (length modes - i - 1)%nat) by (pose proof (skipn_length i modes) as X; rewrite E in X; cbn [length] in X; lia).
      assert (SK : forall n, skipn n r = skipn (i + 1 + n) modes).
      { intro n. pose proof (skipn_skipn' modes (S n) i) as X. rewrite E in X. cbn [skipn] in X. rewrite X. f_equal. lia. }
      cbn [shades]. destruct (is_ls_mode m) eqn:LS.
      * destruct (run_length_spec m r) as (R1 & R2 & R3). set (n := run_length m r) in *. set (j := (i + 1 + n)%nat).
        assert (BL : whole_block modes m i j).
        { split; [unfold j; lia|]. split; [|split; [apply INV; [exact Ei|exact LS]|unfold j; rewrite <- ER; exact R3]].
          intros k K. destruct (Nat.eq_dec k i) as [->|NK]; [exact Ei|]. replace k with (i + 1 + (k - i - 1))%nat by lia. rewrite <- ER. apply R2. unfold j in K. lia. }
        assert (LJ : (j <= length modes)%nat) by (unfold j; lia).
        assert (P0 : py_nth (step_times iv N) (Z.of_nat i) = Ok (Z.of_nat i * iv)%Z).
        { apply py_nth_ok. apply step_times_nth. lia. }
        assert (P1 : py_nth (step_times iv N) (Z.of_nat j - 1) = Ok (Z.of_nat (j - 1) * iv)%Z).
        { replace (Z.of_nat j - 1)%Z with (Z.of_nat (j - 1)) by (unfold j; lia). apply py_nth_ok. apply step_times_nth. unfold j in *. lia. }
        rewrite P0, P1. cbn [bind]. fold j. rewrite (SK n). fold j.
        destruct (IH j (m :: seen)) as (sh & ES & S1 & S2 & S3 & S4).
        { unfold j in *. lia. }
        { intros m' E' _. right. intro X. destruct BL as (_ & K & _ & NB). rewrite (K (j - 1)%nat) in X by (unfold j; lia). congruence. }
        rewrite ES. cbn [bind]. eexists. split; [reflexivity|]. assert (TO : (Z.of_nat (j - 1) * iv + iv = Z.of_nat j * iv)%Z) by (replace (Z.of_nat j) with (Z.of_nat (j - 1) + 1)%Z by (unfold j; lia); ring).
        split; [|split; [|split]].
        -- intros s [<-|I]; cbn [sh_kind sh_from sh_to].
           ++ exists i, j. repeat (split; [solve [lia|exact LS|exact BL|reflexivity]|]). exact TO.
           ++ destruct (S1 s I) as (a & b & IA & K). exists a, b. split; [unfold j in IA; lia|exact K].
        -- intros m' a b IA LS' B. destruct (Nat.lt_ge_cases a j) as [AJ|AJ].
           ++ assert (m' = m) by (destruct B as (B0 & B1 & _), BL as (_ & B2 & _); specialize (B1 a ltac:(lia)); specialize (B2 a ltac:(lia)); congruence). subst m'.
              destruct BL as (Q0 & Q1 & Q2 & Q3), B as (B0 & B1 & B2 & B3).
              assert (a = i). { destruct (Nat.eq_dec a i) as [X|X]; [exact X|exfalso]. destruct B2 as [->|B2]; [lia|]. apply B2. apply Q1. lia. } subst a.
              assert (b = j). { destruct (Nat.lt_trichotomy b j) as [X|[X|X]]; [exfalso; apply B3; apply Q1; lia|exact X|exfalso; apply Q3; apply B1; lia]. } subst b.
              eexists. split; [left; reflexivity|]. cbn. split; [reflexivity|]. split; [reflexivity|]. exact TO.
           ++ destruct (S2 m' a b AJ LS' B) as (s & I & K). exists s. split; [right; exact I|exact K].
        -- intros [|k] s EK; cbn [nth_error] in EK.
           ++ injection EK as <-. cbn [sh_text sh_kind firstn existsb]. rewrite Bool.orb_false_r. reflexivity.
           ++ rewrite (S3 k s EK). cbn [firstn existsb sh_kind]. destruct (String.eqb (sh_kind s) m); cbn [orb]; [|reflexivity]. rewrite Bool.orb_true_r. reflexivity.
        -- intro IV. constructor; [exact (S4 IV)|]. apply Forall_forall. intros s I. destruct (S1 s I) as (a & b & IA & _ & _ & F & _). cbn [sh_to]. rewrite F, TO. apply Z.mul_le_mono_nonneg_r; lia.
      * destruct (IH (i + 1)%nat seen) as (sh & ES & S1 & S2 & S3 & S4).
        { lia. }
        { intros m' E' LS'. right. replace (i + 1 - 1)%nat with i by lia. rewrite Ei. congruence. }
        pose proof (SK O) as SK0. cbn [skipn] in SK0. rewrite Nat.add_0_r in SK0. rewrite SK0, ES. exists sh. split; [reflexivity|].
        split; [|split; [|split; [exact S3|exact S4]]].
        -- intros s I. destruct (S1 s I) as (a & b & IA & K). exists a, b. split; [lia|exact K].
        -- intros m' a b IA LS' B. apply S2; [|exact LS'|exact B]. destruct (Nat.eq_dec a i) as [->|X]; [|lia]. exfalso.
           destruct B as (B0 & B1 & _). specialize (B1 i ltac:(lia)). congruence.
Qed.

(** The whole block around a step. *)
Lemma block_around modes m k : nth_error modes k = Some m -> exists a b, (a <= k < b)%nat /\ whole_block modes m a b.
Proof.
  intro E.
  assert (DN : exists a, (a <= k)%nat /\ (forall j, (a <= j <= k)%nat -> nth_error modes j = Some m) /\ (a = O \/ nth_error modes (a - 1) <> Some m)).
  { clear -E. induction k as [|k IH].
    - exists O. split; [lia|]. split; [|left; reflexivity]. intros j J. assert (j = O) by lia. subst. exact E.
    - destruct (mode_dec (nth_error modes k) (Some m)) as [X|X].
      + destruct (IH X) as (a & A & B & C). exists a. split; [lia|]. split; [|exact C]. intros j J. destruct (Nat.eq_dec j (S k)) as [->|N]; [exact E|apply B; lia].
      + exists (S k). split; [lia|]. split; [intros j J; assert (j = S k) by lia; subst; exact E|]. right. replace (S k - 1)%nat with k by lia. exact X. }
  destruct DN as (a & A1 & A2 & A3). pose proof (run_length_spec m (skipn k modes)) as (R1 & R2 & R3). set (n := run_length m (skipn k modes)) in *.
  assert (N0 : (0 < n)%nat). { unfold n. pose proof (nth_error_skipn modes k 0) as X. rewrite Nat.add_0_r, E in X. destruct (skipn k modes) as [|x l]; [discriminate|]. cbn in X. injection X as ->. cbn. rewrite String.eqb_refl. lia. }
  exists a, (k + n)%nat. split; [lia|]. split; [lia|]. split; [|split; [exact A3|rewrite <- nth_error_skipn; exact R3]].
  intros j J. destruct (Nat.lt_ge_cases k j) as [X|X]; [|apply A2; lia]. replace j with (k + (j - k))%nat by lia. rewrite <- nth_error_skipn. apply R2. lia.
Qed.
