(** Proofs about costs and energies of a simulation run. *)
From Verif Require Import Prelude M_Building S_Building M_Utility S_Utility M_Heater M_SimRun S_SimRun.
From Verif Require Import L_Heater L_Building L_Utility L_Utility2 L_SimRun.

Lemma zset_keys {A} (d : list (Z * A)) k v x : zget d k = Some x -> map fst (zset d k v) = map fst d.
Proof.
  induction d as [|[a b] d IH]; cbn [zget zset]; [discriminate|].
  destruct (a =? k)%Z eqn:E; intro H; [apply Z.eqb_eq in E; subst; reflexivity|]. cbn. f_equal. apply IH. exact H.
Qed.

Lemma zget_In {A} (d : list (Z * A)) k v : NoDup (map fst d) -> (zget d k = Some v <-> In (k, v) d).
Proof.
  induction d as [|[a b] d IH]; cbn [zget map fst In]; [split; [discriminate|tauto]|].
  intro N. inversion N as [|? ? N1 N2]; subst. destruct (a =? k)%Z eqn:E.
  - apply Z.eqb_eq in E. subst a. split.
    + intro H. inversion H; subst. auto.
    + intros [H|H]; [congruence|]. exfalso. apply N1. apply (in_map fst) in H. exact H.
  - apply Z.eqb_neq in E. rewrite IH by exact N2. split; [auto|]. intros [H|H]; [congruence|exact H].
Qed.

Lemma put_max_keys d p kw : NoDup (map fst d) ->
  NoDup (map fst (put_max d p kw)) /\ forall q, In q (map fst (put_max d p kw)) <-> In q (map fst d) \/ q = p.
Proof.
  intro N. unfold put_max. destruct (zget d p) as [x|] eqn:E.
  - assert (IN : In p (map fst d)) by (apply zget_in_keys; rewrite E; discriminate).
    destruct (qltb x kw).
    + rewrite (zset_keys d p kw x E). split; [exact N|]. intro q. split; [auto|]. intros [H| ->]; assumption.
    + split; [exact N|]. intro q. split; [auto|]. intros [H| ->]; assumption.
  - assert (NI : ~ In p (map fst d)) by (rewrite <- zget_in_keys; rewrite E; congruence).
    rewrite zset_fresh by exact E. rewrite map_app. cbn [map fst]. split.
    + apply NoDup_rev in N. rewrite <- (rev_involutive (map fst d ++ [p])). apply NoDup_rev.
      rewrite rev_app_distr. cbn. constructor; [|exact N]. rewrite <- in_rev. exact NI.
    + intro q. rewrite in_app_iff. cbn. split; [intros [H|[H|[]]]; auto|intros [H|H]; auto].
Qed.

Definition peaks (kw : nat -> Q) (per : nat -> Z) (js : list nat) (d : list (Z * Q)) : list (Z * Q) :=
  fold_left (fun d j => put_max d (per j) (kw j)) js d.

Lemma peaks_ok kw per n : peak_list n kw per (peaks kw per (seq 0 n) []).
Proof.
  induction n as [|n IH].
  - cbn. split; [constructor|]. split; [intros p x []|intros i Hi; lia].
  - unfold peaks in *. rewrite seq_S. rewrite fold_left_app. cbn [Nat.add fold_left].
    set (d := fold_left _ (seq 0 n) []) in *. clearbody d. destruct IH as (N & IN & CO).
    destruct (put_max_keys d (per n) (kw n) N) as [N' K'].
    split; [exact N'|]. split; [|intros i Hi; apply K'; destruct (Nat.eq_dec i n) as [->|Ni]; [auto|left; apply CO; lia]].
    intros p x H. apply zget_In in H; [|exact N'].
    unfold put_max in H. destruct (zget d (per n)) as [y|] eqn:E.
    + pose proof (proj1 (zget_In d _ _ N) E) as Ey. destruct (IN _ _ Ey) as [(iy & Hiy & Piy & Kiy) My].
      destruct (qltb y (kw n)) eqn:B; qbool.
      * rewrite zget_zset in H. destruct (per n =? p)%Z eqn:EP.
        -- apply Z.eqb_eq in EP. inversion H; subst x. split; [exists n; split; [lia|split; [exact EP|reflexivity]]|].
           intros i Hi Pi. destruct (Nat.eq_dec i n) as [->|Ni]; [lra|].
           assert (kw i <= y) by (apply My; [lia|congruence]). lra.
        -- apply Z.eqb_neq in EP. apply zget_In in H; [|exact N]. destruct (IN _ _ H) as [(i & Hi & Pi & Ki) M].
           split; [exists i; split; [lia|auto]|]. intros j Hj Pj. destruct (Nat.eq_dec j n) as [->|Nj]; [congruence|]. apply M; [lia|exact Pj].
      * apply zget_In in H; [|exact N]. destruct (IN _ _ H) as [(i & Hi & Pi & Ki) M].
        split; [exists i; split; [lia|auto]|]. intros j Hj Pj. destruct (Nat.eq_dec j n) as [->|Nj].
        -- subst p. apply (zget_In d) in H; [|exact N]. assert (x = y) by congruence. subst x. exact B.
        -- apply M; [lia|exact Pj].
    + rewrite zget_zset in H. destruct (per n =? p)%Z eqn:EP.
      * apply Z.eqb_eq in EP. inversion H; subst x. split; [exists n; split; [lia|split; [exact EP|reflexivity]]|].
        intros i Hi Pi. destruct (Nat.eq_dec i n) as [->|Ni]; [lra|].
        exfalso. assert (C : In (per i) (map fst d)) by (apply CO; lia). rewrite Pi, <- EP in C.
        apply zget_in_keys in C. congruence.
      * apply zget_In in H; [|exact N]. destruct (IN _ _ H) as [(i & Hi & Pi & Ki) M].
        apply Z.eqb_neq in EP.
        split; [exists i; split; [lia|auto]|]. intros j Hj Pj. destruct (Nat.eq_dec j n) as [->|Nj]; [congruence|]. apply M; [lia|exact Pj].
Qed.

Definition looks (u : tracker) (iv : Z) (rate : nat -> Q) (per : nat -> Z) (j : nat) : Prop :=
  ut_energy_at u (Z.of_nat j) iv = Ok (Some (rate j)) /\ ut_period_at u (Z.of_nat j) iv = Ok (per j).

(** Chosen answers of the tariff. *)
Definition rate_of (u : tracker) (iv : Z) (j : nat) : Q :=
  match ut_energy_at u (Z.of_nat j) iv with Ok (Some x) => x | _ => 0 end.
Definition period_of (u : tracker) (iv : Z) (j : nat) : Z :=
  match ut_period_at u (Z.of_nat j) iv with Ok p => p | _ => 0%Z end.

Lemma looks_chosen u iv j x p : ut_energy_at u (Z.of_nat j) iv = Ok (Some x) -> ut_period_at u (Z.of_nat j) iv = Ok p ->
  looks u iv (rate_of u iv) (period_of u iv) j.
Proof. intros E P. unfold looks, rate_of, period_of. rewrite E, P. auto. Qed.

Lemma looks_unique u iv r1 p1 r2 p2 j : looks u iv r1 p1 j -> looks u iv r2 p2 j -> r1 j = r2 j /\ p1 j = p2 j.
Proof. intros [A B] [C D]. rewrite A in C. rewrite B in D. inversion C; inversion D. auto. Qed.

Section Loops.
Variables (u : tracker) (iv : Z) (rate : nat -> Q) (per : nat -> Z).

Lemma annual_loop_ok tm : forall l i c d (K : nat -> Q),
  (forall j raw, nth_error l j = Some raw -> K (i + j)%nat = step_kw tm (i + j) raw) ->
  (forall j, (j < length l)%nat -> looks u iv rate per (i + j)) ->
  exists c', annual_loop u iv tm i l c d = Ok (c', peaks K per (seq i (length l)) d) /\
    c' == c + qsum (map (energy_charge K (qz iv / 60) rate) (seq i (length l))).
Proof.
  induction l as [|raw l IH]; intros i c d K HK HL.
  - exists c. cbn. split; [reflexivity|lra].
  - cbn [annual_loop length seq map qsum]. destruct (HL 0%nat ltac:(cbn; lia)) as [E1 E2]. rewrite Nat.add_0_r in E1, E2.
    rewrite E1. cbn [bind step_cost]. rewrite E2. cbn [bind].
    assert (K0 : step_kw tm i raw = K i) by (specialize (HK 0%nat raw eq_refl); rewrite Nat.add_0_r in HK; auto).
    rewrite K0. rewrite Nat.add_1_r.
    destruct (IH (S i) (c + K i * (qz iv / 60) * rate i) (put_max d (per i) (K i)) K) as (c' & A & B).
    { intros j raw' Hj. replace (S i + j)%nat with (i + S j)%nat by lia. apply HK. exact Hj. }
    { intros j Hj. replace (S i + j)%nat with (i + S j)%nat by lia. apply HL. cbn. lia. }
    exists c'. split; [exact A|]. rewrite B. unfold energy_charge at 2. lra.
Qed.

Lemma monthly_loop_ok : forall l i en d (K : nat -> Q) (mon : nat -> nat),
  (forall j raw, nth_error l j = Some raw -> K (i + j)%nat = or0 raw) ->
  (forall j, (j < length l)%nat -> looks u iv rate per (i + j)) ->
  (forall j, (j < length l)%nat -> Z.to_nat (step_to_month (Z.of_nat (i + j)) iv) = mon (i + j)%nat) ->
  exists en', monthly_loop u iv i l en d = Ok (en', peaks K per (seq i (length l)) d) /\ length en' = length en /\
    forall m, (m < length en)%nat -> nth m en' 0 == nth m en 0 +
      qsum (map (fun j => if Nat.eqb (mon j) m then energy_charge K (qz iv / 60) rate j else 0) (seq i (length l))).
Proof.
  induction l as [|raw l IH]; intros i en d K mon HK HL HM.
  - exists en. cbn. split; [reflexivity|]. split; [reflexivity|]. intros; lra.
  - cbn [monthly_loop length seq map qsum]. destruct (HL 0%nat ltac:(cbn; lia)) as [E1 E2]. rewrite Nat.add_0_r in E1, E2.
    rewrite E1. cbn [bind step_cost]. rewrite E2. cbn [bind].
    assert (K0 : or0 raw = K i) by (specialize (HK 0%nat raw eq_refl); rewrite Nat.add_0_r in HK; auto).
    assert (M0 := HM 0%nat ltac:(cbn; lia)). rewrite Nat.add_0_r in M0.
    rewrite K0, M0. rewrite Nat.add_1_r.
    set (c := K i * (qz iv / 60) * rate i).
    assert (LA : forall l m x, length (add_at l m x) = length l).
    { clear. induction l as [|y l IH]; intros [|m] x; cbn; auto. }
    assert (NA : forall l m x k, (k < length l)%nat -> nth k (add_at l m x) 0 == nth k l 0 + (if Nat.eqb m k then x else 0)).
    { clear. induction l as [|y l IH]; intros [|m] x [|k] H; cbn in *; try lia; try lra. apply IH. lia. }
    destruct (IH (S i) (add_at en (mon i) c) (put_max d (per i) (K i)) K mon) as (en' & A & B & C).
    { intros j raw' Hj. replace (S i + j)%nat with (i + S j)%nat by lia. apply HK. exact Hj. }
    { intros j Hj. replace (S i + j)%nat with (i + S j)%nat by lia. apply HL. cbn. lia. }
    { intros j Hj. replace (S i + j)%nat with (i + S j)%nat by lia. apply HM. cbn. lia. }
    exists en'. split; [exact A|]. rewrite LA in B, C. split; [exact B|]. intros m Hm. rewrite C by exact Hm.
    rewrite NA by exact Hm. unfold energy_charge at 2. fold c. lra.
Qed.
End Loops.

Lemma add_at_length l : forall m x, length (add_at l m x) = length l.
Proof. induction l as [|y l IH]; intros [|m] x; cbn; auto. Qed.
Lemma add_at_nth l : forall m x k, (k < length l)%nat -> nth k (add_at l m x) 0 == nth k l 0 + (if Nat.eqb m k then x else 0).
Proof. induction l as [|y l IH]; intros [|m] x [|k] H; cbn in *; try lia; try lra. apply IH. lia. Qed.

Lemma detailed_loop_ok u iv rate per tm : forall l i ep eo d (K : nat -> Q) (mon : nat -> nat),
  length ep = length eo ->
  (forall j raw, nth_error l j = Some raw -> K (i + j)%nat = step_kw tm (i + j) raw) ->
  (forall j, (j < length l)%nat -> looks u iv rate per (i + j)) ->
  (forall j, (j < length l)%nat -> Z.to_nat (step_to_month (Z.of_nat (i + j)) iv) = mon (i + j)%nat) ->
  exists ep' eo', detailed_loop u iv tm i l ep eo d = Ok (ep', eo', peaks K per (seq i (length l)) d) /\
    length ep' = length ep /\ length eo' = length ep /\
    forall m, (m < length ep)%nat ->
      nth m ep' 0 == nth m ep 0 +
        qsum (map (fun j => if (Nat.eqb (mon j) m && is_peak u (per j))%bool then energy_charge K (qz iv / 60) rate j else 0) (seq i (length l))) /\
      nth m eo' 0 == nth m eo 0 +
        qsum (map (fun j => if (Nat.eqb (mon j) m && negb (is_peak u (per j)))%bool then energy_charge K (qz iv / 60) rate j else 0) (seq i (length l))).
Proof.
  induction l as [|raw l IH]; intros i ep eo d K mon LE HK HL HM.
  - exists ep, eo. cbn. split; [reflexivity|]. split; [reflexivity|]. split; [auto|]. intros; split; lra.
  - cbn [detailed_loop length seq map qsum]. destruct (HL 0%nat ltac:(cbn; lia)) as [E1 E2]. rewrite Nat.add_0_r in E1, E2.
    rewrite E2. cbn [bind]. rewrite E1. cbn [bind step_cost].
    assert (K0 : step_kw tm i raw = K i) by (specialize (HK 0%nat raw eq_refl); rewrite Nat.add_0_r in HK; auto).
    assert (M0 := HM 0%nat ltac:(cbn; lia)). rewrite Nat.add_0_r in M0.
    rewrite K0, M0. rewrite Nat.add_1_r.
    set (c := K i * (qz iv / 60) * rate i).
    destruct (IH (S i) (if is_peak u (per i) then add_at ep (mon i) c else ep)
                 (if is_peak u (per i) then eo else add_at eo (mon i) c) (put_max d (per i) (K i)) K mon) as (ep' & eo' & A & B1 & B2 & C).
    { destruct (is_peak u (per i)); rewrite ?add_at_length; exact LE. }
    { intros j raw' Hj. replace (S i + j)%nat with (i + S j)%nat by lia. apply HK. exact Hj. }
    { intros j Hj. replace (S i + j)%nat with (i + S j)%nat by lia. apply HL. cbn. lia. }
    { intros j Hj. replace (S i + j)%nat with (i + S j)%nat by lia. apply HM. cbn. lia. }
    assert (LL : length (if is_peak u (per i) then add_at ep (mon i) c else ep) = length ep).
    { destruct (is_peak u (per i)); rewrite ?add_at_length; reflexivity. }
    rewrite LL in *. exists ep', eo'. split; [exact A|]. split; [exact B1|]. split; [exact B2|].
    intros m Hm. destruct (C m Hm) as [C1 C2]. rewrite C1, C2. change (energy_charge K (qz iv / 60) rate i) with c.
    destruct (is_peak u (per i)); cbn [negb]; rewrite ?andb_true_r, ?andb_false_r.
    + rewrite add_at_nth by exact Hm. split; lra.
    + rewrite (add_at_nth eo) by lia. split; lra.
Qed.

(** Successful loops have looked up every step. *)
Lemma annual_loop_inv u iv tm : forall l i c d x, annual_loop u iv tm i l c d = Ok x ->
  forall j, (j < length l)%nat -> looks u iv (rate_of u iv) (period_of u iv) (i + j).
Proof.
  induction l as [|raw l IH]; intros i c d x H j Hj; [cbn in Hj; lia|].
  cbn [annual_loop] in H. destruct (bind_ok _ _ _ H) as (r & E1 & H1). destruct (bind_ok _ _ _ H1) as (c1 & E2 & H2).
  destruct (bind_ok _ _ _ H2) as (p & E3 & H3). destruct r as [r|]; [|discriminate].
  destruct j as [|j].
  - rewrite Nat.add_0_r. eapply looks_chosen; eauto.
  - replace (i + S j)%nat with (i + 1 + j)%nat by lia. eapply IH; eauto. cbn in Hj. lia.
Qed.

Lemma detailed_loop_inv u iv tm : forall l i ep eo d x, detailed_loop u iv tm i l ep eo d = Ok x ->
  forall j, (j < length l)%nat -> looks u iv (rate_of u iv) (period_of u iv) (i + j).
Proof.
  induction l as [|raw l IH]; intros i ep eo d x H j Hj; [cbn in Hj; lia|].
  cbn [detailed_loop] in H. destruct (bind_ok _ _ _ H) as (p & E1 & H1). destruct (bind_ok _ _ _ H1) as (r & E2 & H2).
  destruct (bind_ok _ _ _ H2) as (c & E3 & H3). destruct r as [r|]; [|discriminate].
  destruct j as [|j].
  - rewrite Nat.add_0_r. eapply looks_chosen; eauto.
  - replace (i + S j)%nat with (i + 1 + j)%nat by lia. eapply IH; eauto. cbn in Hj. lia.
Qed.

Lemma monthly_loop_inv u iv : forall l i en d x, monthly_loop u iv i l en d = Ok x ->
  forall j, (j < length l)%nat -> looks u iv (rate_of u iv) (period_of u iv) (i + j).
Proof.
  induction l as [|raw l IH]; intros i en d x H j Hj; [cbn in Hj; lia|].
  cbn [monthly_loop] in H. destruct (bind_ok _ _ _ H) as (r & E1 & H1). destruct (bind_ok _ _ _ H1) as (c & E2 & H2).
  destruct (bind_ok _ _ _ H2) as (p & E3 & H3). destruct r as [r|]; [|discriminate].
  destruct j as [|j].
  - rewrite Nat.add_0_r. eapply looks_chosen; eauto.
  - replace (i + S j)%nat with (i + 1 + j)%nat by lia. eapply IH; eauto. cbn in Hj. lia.
Qed.

(** ** Demand charges *)

Definition charge_of (u : tracker) (e : Z * Q) : Q :=
  match ut_demand_charge u (fst e) (snd e) with Ok c => c | Err _ => 0 end.

Lemma charges_mapM u : forall d cs, mapM (fun e => ut_demand_charge u (fst e) (snd e)) d = Ok cs ->
  cs = map (charge_of u) d /\ forall e, In e d -> ut_demand_charge u (fst e) (snd e) = Ok (charge_of u e).
Proof.
  induction d as [|e d IH]; intros cs H; cbn [mapM] in H.
  - inversion H. split; [reflexivity|intros e []].
  - destruct (bind_ok _ _ _ H) as (c & E & H1). destruct (bind_ok _ _ _ H1) as (cs' & E' & H2). inversion H2; subst.
    destruct (IH _ E') as [A B]. subst cs'.
    assert (C : charge_of u e = c) by (unfold charge_of; rewrite E; reflexivity).
    split; [cbn; rewrite C; reflexivity|]. intros e' [<-|H']; [rewrite C; exact E|auto].
Qed.

Lemma charges_mapM_ok u : forall d, (forall e, In e d -> ut_demand_charge u (fst e) (snd e) = Ok (charge_of u e)) ->
  mapM (fun e => ut_demand_charge u (fst e) (snd e)) d = Ok (map (charge_of u) d).
Proof.
  induction d as [|e d IH]; intro H; [reflexivity|]. cbn [mapM map]. rewrite (H e) by (left; reflexivity). cbn [bind].
  rewrite IH by (intros e' He; apply H; right; exact He). reflexivity.
Qed.

Definition month_ok (u : tracker) (p : Z) : Prop := (0 <= p / periods_per_month u < 12)%Z.

Lemma detailed_demand_ok u : forall d dp dq,
  length dp = 12%nat -> length dq = 12%nat ->
  (forall e, In e d -> month_ok u (fst e)) ->
  (forall e, In e d -> ut_demand_charge u (fst e) (snd e) = Ok (charge_of u e)) ->
  exists dp' dq', detailed_demand u d dp dq = Ok (dp', dq') /\ length dp' = 12%nat /\ length dq' = 12%nat /\
    forall m, (m < 12)%nat ->
      nth m dp' 0 == nth m dp 0 + qsum (map (fun e => if (Nat.eqb (Z.to_nat (fst e / periods_per_month u)) m && is_peak u (fst e))%bool then charge_of u e else 0) d) /\
      nth m dq' 0 == nth m dq 0 + qsum (map (fun e => if (Nat.eqb (Z.to_nat (fst e / periods_per_month u)) m && negb (is_peak u (fst e)))%bool then charge_of u e else 0) d).
Proof.
  induction d as [|[p x] d IH]; intros dp dq L1 L2 HM HC.
  - exists dp, dq. cbn. split; [reflexivity|]. split; [exact L1|]. split; [exact L2|]. intros; split; lra.
  - cbn [detailed_demand map qsum fst]. assert (M := HM (p, x) (or_introl eq_refl)). unfold month_ok in M. cbn [fst] in M.
    replace ((0 <=? p / periods_per_month u) && (p / periods_per_month u <? 12))%Z%bool with true by lia.
    assert (C := HC (p, x) (or_introl eq_refl)). cbn [fst snd] in C. rewrite C. cbn [bind].
    set (m0 := Z.to_nat (p / periods_per_month u)). set (c := charge_of u (p, x)).
    assert (HM' : forall e, In e d -> month_ok u (fst e)) by (intros e He; apply HM; right; exact He).
    assert (HC' : forall e, In e d -> ut_demand_charge u (fst e) (snd e) = Ok (charge_of u e)) by (intros e He; apply HC; right; exact He).
    destruct (is_peak u p); cbn [negb]; setoid_rewrite andb_true_r; setoid_rewrite andb_false_r.
    + destruct (IH (add_at dp m0 c) dq) as (dp' & dq' & A & B1 & B2 & B3); [rewrite add_at_length; exact L1|exact L2|exact HM'|exact HC'|].
      exists dp', dq'. split; [exact A|]. split; [exact B1|]. split; [exact B2|]. intros m Hm. destruct (B3 m Hm) as [X Y].
      rewrite X, Y. rewrite add_at_nth by lia. split; lra.
    + destruct (IH dp (add_at dq m0 c)) as (dp' & dq' & A & B1 & B2 & B3); [exact L1|rewrite add_at_length; exact L2|exact HM'|exact HC'|].
      exists dp', dq'. split; [exact A|]. split; [exact B1|]. split; [exact B2|]. intros m Hm. destruct (B3 m Hm) as [X Y].
      rewrite X, Y. rewrite add_at_nth by lia. split; lra.
Qed.

Lemma detailed_demand_inv u : forall d dp dq x, detailed_demand u d dp dq = Ok x ->
  forall e, In e d -> month_ok u (fst e) -> ut_demand_charge u (fst e) (snd e) = Ok (charge_of u e).
Proof.
  induction d as [|[p y] d IH]; intros dp dq x H e He Me; [destruct He|].
  cbn [detailed_demand] in H.
  destruct ((0 <=? p / periods_per_month u) && (p / periods_per_month u <? 12))%Z%bool eqn:B.
  - destruct (bind_ok _ _ _ H) as (c & E & H1). destruct He as [<-|He].
    + cbn [fst snd]. unfold charge_of. cbn [fst snd]. rewrite E. reflexivity.
    + destruct (is_peak u p); eapply IH; eauto.
  - destruct He as [<-|He]; [unfold month_ok in Me; cbn [fst] in Me; lia|]. eapply IH; eauto.
Qed.

Lemma monthly_demand_ok u : forall d dm,
  length dm = 12%nat -> (forall e, In e d -> month_ok u (fst e)) ->
  (forall e, In e d -> ut_demand_charge u (fst e) (snd e) = Ok (charge_of u e)) ->
  exists dm', monthly_demand u d dm = Ok dm' /\ length dm' = 12%nat /\
    forall m, (m < 12)%nat ->
      nth m dm' 0 == nth m dm 0 + qsum (map (fun e => if Nat.eqb (Z.to_nat (fst e / periods_per_month u)) m then charge_of u e else 0) d).
Proof.
  induction d as [|[p x] d IH]; intros dm L1 HM HC.
  - exists dm. cbn. split; [reflexivity|]. split; [exact L1|]. intros; lra.
  - cbn [monthly_demand map qsum fst]. assert (M := HM (p, x) (or_introl eq_refl)). unfold month_ok in M. cbn [fst] in M.
    replace ((0 <=? p / periods_per_month u) && (p / periods_per_month u <? 12))%Z%bool with true by lia.
    assert (C := HC (p, x) (or_introl eq_refl)). cbn [fst snd] in C. rewrite C. cbn [bind].
    destruct (IH (add_at dm (Z.to_nat (p / periods_per_month u)) (charge_of u (p, x)))) as (dm' & A & B1 & B2).
    { rewrite add_at_length. exact L1. } { intros e He; apply HM; right; exact He. } { intros e He; apply HC; right; exact He. }
    exists dm'. split; [exact A|]. split; [exact B1|]. intros m Hm. rewrite (B2 m Hm). rewrite add_at_nth by lia. lra.
Qed.

Lemma monthly_demand_inv u : forall d dm x, monthly_demand u d dm = Ok x ->
  forall e, In e d -> month_ok u (fst e) -> ut_demand_charge u (fst e) (snd e) = Ok (charge_of u e).
Proof.
  induction d as [|[p y] d IH]; intros dm x H e He Me; [destruct He|].
  cbn [monthly_demand] in H.
  destruct ((0 <=? p / periods_per_month u) && (p / periods_per_month u <? 12))%Z%bool eqn:B.
  - destruct (bind_ok _ _ _ H) as (c & E & H1). destruct He as [<-|He].
    + cbn [fst snd]. unfold charge_of. cbn [fst snd]. rewrite E. reflexivity.
    + eapply IH; eauto.
  - destruct He as [<-|He]; [unfold month_ok in Me; cbn [fst] in Me; lia|]. eapply IH; eauto.
Qed.

(** ** Sums over months *)

Lemma qsum_months (l : list Q) : length l = 12%nat -> qsum l == qsum (map (fun m => nth m l 0) (seq 0 12)).
Proof. intro H. rewrite <- H. symmetry. apply qsum_nth. Qed.

Lemma sum_hit (k n : nat) x : (k < n)%nat -> qsum (map (fun m => if Nat.eqb k m then x else 0) (seq 0 n)) == x.
Proof.
  intro H. induction n as [|n IH]; [lia|]. rewrite seq_S, map_app, qsum_app. cbn [Nat.add map qsum].
  destruct (Nat.eq_dec k n) as [->|N].
  - rewrite Nat.eqb_refl. rewrite (qsum_map_const (seq 0 n) _ 0); [lra|].
    intros m Hm. apply in_seq in Hm. destruct (Nat.eqb n m) eqn:E; [apply Nat.eqb_eq in E; lia|reflexivity].
  - rewrite IH by lia. destruct (Nat.eqb k n) eqn:E; [apply Nat.eqb_eq in E; lia|lra].
Qed.

Lemma sum_months_swap {A} (l : list A) (mon : A -> nat) (f : A -> Q) :
  (forall x, In x l -> (mon x < 12)%nat) ->
  qsum (map (fun m => qsum (map (fun x => if Nat.eqb (mon x) m then f x else 0) l)) (seq 0 12)) == qsum (map f l).
Proof.
  induction l as [|a l IH]; intro H.
  - cbn [map qsum]. rewrite (qsum_map_const (seq 0 12) _ 0); [lra|reflexivity].
  - cbn [map qsum]. rewrite (qsum_map_add (fun m => if Nat.eqb (mon a) m then f a else 0) (fun m => qsum (map (fun x => if Nat.eqb (mon x) m then f x else 0) l))).
    rewrite sum_hit by (apply H; left; reflexivity). rewrite IH by (intros x Hx; apply H; right; exact Hx). lra.
Qed.

Lemma split_if {A} (l : list A) (s b : A -> bool) (f : A -> Q) :
  qsum (map (fun x => if (s x && b x)%bool then f x else 0) l) + qsum (map (fun x => if (s x && negb (b x))%bool then f x else 0) l)
  == qsum (map (fun x => if s x then f x else 0) l).
Proof.
  rewrite <- qsum_map_add. apply qsum_map_ext. intros x _. destruct (s x), (b x); cbn; lra.
Qed.
