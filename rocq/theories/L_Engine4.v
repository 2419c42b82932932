From Coq Require Import Ascii.
From Verif Require Import Prelude M_Building L_Building M_Heater S_Heater L_Heater M_Step L_Step M_Engine S_Engine.
Open Scope Q_scope.

(** ** Strings *)

Lemma length_app s t : String.length (s ++ t)%string = (String.length s + String.length t)%nat.
Proof. induction s as [|c s IH]; cbn; [reflexivity|]. rewrite IH. reflexivity. Qed.

Fixpoint take (n : nat) (s : string) : string :=
  match n, s with O, _ => EmptyString | S k, String c r => String c (take k r) | S _, EmptyString => EmptyString end.
Fixpoint drop (n : nat) (s : string) : string :=
  match n, s with O, _ => s | S k, String _ r => drop k r | S _, EmptyString => EmptyString end.

Lemma take_drop : forall n s, s = (take n s ++ drop n s)%string.
Proof. induction n as [|n IH]; intros [|c s]; cbn; try reflexivity. f_equal. apply IH. Qed.
Lemma drop_length : forall n s, String.length (drop n s) = (String.length s - n)%nat.
Proof. induction n as [|n IH]; intros [|c s]; cbn; try reflexivity. apply IH. Qed.
Lemma substring_all : forall s, substring 0 (String.length s) s = s.
Proof. induction s as [|c s IH]; cbn; [reflexivity|]. f_equal. exact IH. Qed.
Lemma substring_drop : forall n s, (n <= String.length s)%nat -> substring n (String.length s - n) s = drop n s.
Proof.
  induction n as [|n IH]; intros s L.
  - rewrite Nat.sub_0_r. destruct s; [reflexivity|apply substring_all].
  - destruct s as [|c s]; [cbn in L; lia|]. cbn. apply IH. cbn in L. lia.
Qed.
Lemma drop_app : forall a t, drop (String.length a) (a ++ t)%string = t.
Proof. induction a as [|c a IH]; intro t; cbn; [destruct t; reflexivity|apply IH]. Qed.
Lemma get_drop : forall n s c, String.get n s = Some c <-> exists r, drop n s = String c r.
Proof.
  induction n as [|n IH]; intros [|d s] c; cbn; split; intro H; try discriminate; try (destruct H; discriminate).
  - injection H as ->. eauto.
  - destruct H as (r & H). injection H as -> _. reflexivity.
  - apply IH. exact H.
  - apply IH. exact H.
Qed.

Lemma ends_with_spec s t : ends_with s t = true <-> ends s t.
Proof.
  unfold ends_with. split.
  - intro H. apply andb_true_iff in H. destruct H as [L E]. apply Nat.leb_le in L. apply String.eqb_eq in E.
    exists (take (String.length s - String.length t) s). rewrite (take_drop (String.length s - String.length t) s) at 1. f_equal.
    rewrite <- E at 2. rewrite <- substring_drop by lia. f_equal. lia.
  - intros (a & ->). rewrite length_app. apply andb_true_iff. split; [apply Nat.leb_le; lia|]. apply String.eqb_eq.
    replace (String.length a + String.length t - String.length t)%nat with (String.length a) by lia.
    assert (E : substring (String.length a) (String.length (a ++ t) - String.length a) (a ++ t) = t).
    { rewrite substring_drop by (rewrite length_app; lia). apply drop_app. }
    rewrite length_app in E. replace (String.length a + String.length t - String.length a)%nat with (String.length t) in E by lia. exact E.
Qed.

Lemma four_chars s : String.length s = 3%nat -> exists x y z, s = String x (String y (String z EmptyString)).
Proof.
  destruct s as [|x [|y [|z [|w s]]]]; cbn; intro H; try discriminate. eauto.
Qed.

Lemma from_end_ok s : (4 <= String.length s)%nat -> exists c, from_end s 4 = Ok c /\ (Ascii.eqb c "C" = true <-> commercial s).
Proof.
  intro L. unfold from_end. replace (String.length s <? 4)%nat with false by (symmetry; apply Nat.ltb_ge; exact L).
  pose proof (drop_length (String.length s - 4) s) as DL. destruct (drop (String.length s - 4) s) as [|c r] eqn:ED; [cbn in DL; lia|].
  assert (G : String.get (String.length s - 4) s = Some c) by (apply get_drop; eauto). rewrite G. exists c. split; [reflexivity|].
  cbn in DL. split.
  - intro E. apply Ascii.eqb_eq in E. subst c. destruct (four_chars r ltac:(lia)) as (x & y & z & ->).
    exists (take (String.length s - 4) s), x, y, z. rewrite <- ED. apply take_drop.
  - intros (a & x & y & z & ->). rewrite length_app in ED. cbn in ED. replace (String.length a + 4 - 4)%nat with (String.length a) in ED by lia.
    rewrite drop_app in ED. injection ED as <- _. reflexivity.
Qed.

Lemma from_end_short s : (String.length s < 4)%nat -> from_end s 4 = Err IndexError.
Proof. intro L. unfold from_end. replace (String.length s <? 4)%nat with true by (symmetry; apply Nat.ltb_lt; exact L). reflexivity. Qed.

Lemma mem_in s l : mem s l = true <-> In s l.
Proof.
  unfold mem. rewrite existsb_exists. split.
  - intros (x & I & E). apply String.eqb_eq in E. subst x. exact I.
  - intro I. exists s. split; [exact I|apply String.eqb_refl].
Qed.

(** ** Listing *)

Lemma keep_spec mp res sg ex code e k : keep_model mp res sg ex code e = Ok k ->
  (k = true <-> suitable res sg ex code e /\ (mp = true <-> ends code "_MP")).
Proof.
  unfold keep_model. intro H. destruct (mem code ex) eqn:M.
  { apply ok_inj in H. subst k. apply mem_in in M. split; [discriminate|]. intros [(N & _) _]. contradiction. }
  assert (NI : ~ In code ex) by (intro I; apply mem_in in I; congruence).
  destruct (sg && negb (re_sgip e))%bool eqn:SG.
  { apply ok_inj in H. subst k. apply andb_true_iff in SG. destruct SG as [-> SG]. apply negb_true_iff in SG. split; [discriminate|].
    intros [(_ & N & _) _]. rewrite (N eq_refl) in SG. discriminate. }
  assert (SO : sg = true -> re_sgip e = true) by (intros ->; cbn in SG; apply negb_false_iff in SG; exact SG).
  destruct (bind_ok _ _ _ H) as (c & Ec & H1). clear H.
  destruct (le_lt_dec 4 (String.length code)) as [L|L]; [|rewrite from_end_short in Ec by exact L; discriminate].
  destruct (from_end_ok code L) as (c' & Ec' & CS). rewrite Ec in Ec'. injection Ec' as <-.
  destruct (negb res && negb (Ascii.eqb c "C"))%bool eqn:RC.
  { apply ok_inj in H1. subst k. apply andb_true_iff in RC. destruct RC as [R C]. apply negb_true_iff in R, C. split; [discriminate|].
    intros [(_ & _ & N) _]. apply N in R. apply CS in R. congruence. }
  assert (RO : res = false -> commercial code) by (intros ->; cbn in RC; apply negb_false_iff in RC; apply CS; exact RC).
  pose proof (ends_with_spec code "_MP") as ES. destruct (ends_with code "_MP").
  - destruct mp; cbn in H1; apply ok_inj in H1; subst k.
    + split; [intros _|reflexivity]. split; [split; [exact NI|]; split; assumption|]. tauto.
    + split; [discriminate|]. intros [_ N]. assert (ends code "_MP") by tauto. apply N in H. discriminate.
  - destruct mp; cbn in H1; apply ok_inj in H1; subst k.
    + split; [discriminate|]. intros [_ N]. assert (false = true) by tauto. discriminate.
    + split; [intros _|reflexivity]. split; [split; [exact NI|]; split; assumption|]. split; [discriminate|tauto].
Qed.

Lemma keep_total mp res sg ex code e : (4 <= String.length code)%nat -> exists k, keep_model mp res sg ex code e = Ok k.
Proof.
  intro L. unfold keep_model. destruct (mem code ex); [eauto|]. destruct (sg && _)%bool; [eauto|]. destruct (from_end_ok code L) as (c & -> & _). cbn [bind].
  destruct (negb res && _)%bool; [eauto|]. cbv zeta. destruct (mp && _)%bool; [eauto|]. destruct (negb mp && _)%bool; eauto.
Qed.

Lemma list_spec mp res sg ex : forall reg l, list_models reg mp res ex sg = Ok l ->
  (forall code name, In (code, name) l <-> exists e, In (code, e) reg /\ re_name e = Some name /\ suitable res sg ex code e /\ (mp = true <-> ends code "_MP")) /\
  sublist (map fst l) (map fst reg).
Proof.
  induction reg as [|[code e] reg IH]; intros l H; cbn [list_models] in H.
  - apply ok_inj in H. subst l. split; [|constructor]. intros c n. split; [intros []|intros (e & [] & _)].
  - destruct (bind_ok _ _ _ H) as (k & Ek & H1). clear H. pose proof (keep_spec _ _ _ _ _ _ _ Ek) as KS. destruct k.
    + destruct (re_name e) as [n|] eqn:EN; [|discriminate]. destruct (bind_ok _ _ _ H1) as (l' & El & H2). apply ok_inj in H2. subst l.
      destruct (IH _ El) as [I1 I2]. split; [|constructor; exact I2]. intros c nm. split.
      * intros [E|I]; [injection E as <- <-; exists e; split; [left; reflexivity|]; split; [exact EN|]; apply KS; reflexivity|].
        apply I1 in I. destruct I as (e' & I & R). exists e'. split; [right; exact I|exact R].
      * intros (e' & [E|I] & N & R); [injection E as <- <-; left; congruence|right; apply I1; exists e'; auto].
    + destruct (IH _ H1) as [I1 I2]. split; [|constructor; exact I2]. intros c nm. rewrite I1. split.
      * intros (e' & I & R). exists e'. split; [right; exact I|exact R].
      * intros (e' & [E|I] & N & R); [injection E as <- <-; apply KS in R; discriminate|exists e'; auto].
Qed.

Lemma list_total mp res sg ex : forall reg, well_formed reg -> exists l, list_models reg mp res ex sg = Ok l.
Proof.
  induction reg as [|[code e] reg IH]; intro W; cbn [list_models]; [eauto|].
  destruct (W code e ltac:(left; reflexivity)) as (L & n & N). destruct (keep_total mp res sg ex code e L) as ([] & ->); cbn [bind].
  - rewrite N. destruct IH as (l & ->); [intros c e' I; apply W; right; exact I|]. cbn [bind]. eauto.
  - apply IH. intros c e' I. apply W. right. exact I.
Qed.

Lemma sublist_in {A} (l m : list A) : sublist l m -> forall x, In x l -> In x m.
Proof. induction 1; intros y I; [exact I|right; auto|destruct I as [->|I]; [left; reflexivity|right; auto]]. Qed.
Lemma sublist_nodup {A} (l m : list A) : sublist l m -> NoDup m -> NoDup l.
Proof.
  induction 1 as [|x l m H IH|x l m H IH]; intro N; [constructor| |]; inversion N as [|x' l' NI N']; subst.
  - exact (IH N').
  - constructor; [|exact (IH N')]. intro I. exact (NI (sublist_in _ _ H _ I)).
Qed.

(** ** Number of units *)

Lemma model_units reg model d n pm oat outlet inlet c : (1 <= n)%Z ->
  pm_from_model reg model n d None = Ok pm -> pm_capacity pm oat outlet inlet = Ok (Some c) ->
  exists pm1 x, pm_from_model reg model 1 d None = Ok pm1 /\ pm_capacity pm1 oat outlet inlet = Ok (Some x) /\ c == qz n * x.
Proof.
  intros N EP EC. unfold pm_from_model in *. destruct (dict_get reg model) as [e|]; [|discriminate]. cbv zeta in *.
  destruct (re_pkl e) as [f|]; [|destruct (re_perfmap e) as [l|]; [|discriminate]]; apply ok_inj in EP; subst pm;
    cbn [pm_capacity] in EC; destruct (bind_ok _ _ _ EC) as (c' & E1 & E2); apply ok_inj in E2; injection E2 as ->.
  - set (m := mkPkMap (pf_out f) (pf_in f) (pf_oats f) (pf_grid f) (pf_inlet_max f) (pf_out_high f) (pf_in_high f) (pf_out_low f) 1
       (mem model two_input_names || ends_with model "MP" || contains model "Lochinvar") (re_hx e) (re_hx_increase e) None d).
    destruct (c33_pk_units m oat outlet inlet) as [U|(k & ? & NN & _)]; [|discriminate]. destruct (U n ltac:(lia)) as [U1 _].
    change (pk_capacity (pk_with_units m n) oat outlet inlet = Ok c) in E1. rewrite E1 in U1. change (pk_with_units m 1) with m in U1.
    exists (PmPkl m). destruct (pk_capacity m oat outlet inlet) as [x|] eqn:EX; [|destruct U1]. exists x. split; [reflexivity|].
    cbn [pm_capacity]. rewrite EX. split; [reflexivity|exact U1].
  - set (m := mkHpMap l 1 (ends_with model "MP") None d).
    destruct (c33_hp_units m oat outlet inlet) as [U|(k & NN & _)]; [|discriminate]. destruct (U n ltac:(lia)) as [U1 _].
    change (hp_capacity (hp_with_units m n) oat outlet inlet = Ok c) in E1. rewrite E1 in U1. change (hp_with_units m 1) with m in U1.
    exists (PmHpwhsim m). destruct (hp_capacity m oat outlet inlet) as [x|] eqn:EX; [|destruct U1]. exists x. split; [reflexivity|].
    cbn [pm_capacity]. rewrite EX. split; [reflexivity|exact U1].
Qed.

(** Python's [in] on strings. *)
Lemma substring_app a t b : substring (String.length a) (String.length t) (a ++ (t ++ b)) = t.
Proof.
  induction a as [|c a IH]; cbn; [|exact IH].
  induction t as [|c t IH]; cbn; [destruct b; reflexivity|]. rewrite IH. reflexivity.
Qed.
Lemma substring_split n m s : exists a b, s = (a ++ substring n m s ++ b)%string.
Proof.
  revert n m. induction s as [|c s IH]; intros n m.
  - exists ""%string, ""%string. destruct n, m; reflexivity.
  - destruct n as [|n].
    + destruct m as [|m].
      * exists ""%string, (String c s). reflexivity.
      * exists ""%string. destruct (IH 0%nat m) as (a & b & E). cbn [substring append].
        clear E a b. revert m. clear IH. induction s as [|c' s IH]; intro m.
        -- exists ""%string. destruct m; reflexivity.
        -- destruct m as [|m]; [exists (String c' s); reflexivity|]. destruct (IH m) as (b & E). injection E as E. exists b.
           cbn [substring append]. f_equal. f_equal. exact E.
    + destruct (IH n m) as (a & b & E). exists (String c a), b. cbn [substring append]. f_equal. exact E.
Qed.
Lemma contains_spec s t : t <> ""%string -> (contains s t = true <-> has_text s t).
Proof.
  intro NE. unfold contains, has_text. destruct (index 0 t s) as [n|] eqn:E.
  - split; [intros _|reflexivity]. apply index_correct1 in E. destruct (substring_split n (String.length t) s) as (a & b & S0).
    rewrite E in S0. exists a, b. exact S0.
  - split; [discriminate|]. intros (a & b & ->). exfalso.
    apply (index_correct3 0 (String.length a) t _ E NE (Nat.le_0_l _)). apply substring_app.
Qed.
