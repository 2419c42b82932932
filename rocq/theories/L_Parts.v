(** Lemmas for C04_builds. *)
From Verif Require Import Prelude M_Building S_Building L_Building S_Parts.

Lemma vadd_total a b : length a = length b -> exists r, vadd a b = Ok r /\ length r = length a.
Proof.
  revert b. induction a as [|x a IH]; intros [|y b] H; cbn [length] in H; try discriminate.
  - exists []. auto.
  - destruct (IH b) as (r & E & L); [lia|]. cbn [vadd]. rewrite E. cbn [bind]. eexists.
    split; [reflexivity|]. cbn [length]. congruence.
Qed.

Lemma blend_total n (l : list (Q * list Q)) :
  l <> [] -> (forall p, In p l -> length (snd p) = n) -> exists v, blend_sum l = Ok v /\ length v = n.
Proof.
  induction l as [|[g s] r IH]; intros N H; [congruence|]. destruct r as [|p r].
  - cbn [blend_sum]. eexists. split; [reflexivity|]. rewrite map_length. apply (H (g, s)). left. reflexivity.
  - destruct IH as (t & Et & Lt); [discriminate|intros; apply H; right; assumption|].
    cbn [blend_sum] in Et |- *. rewrite Et. cbn [bind].
    destruct (vadd_total (map (fun x => g * x) s) t) as (r' & E & L).
    { rewrite map_length, Lt. apply (H (g, s)). left. reflexivity. }
    exists r'. split; [exact E|]. rewrite L, map_length. apply (H (g, s)). left. reflexivity.
Qed.

Lemma div_all_nz l s : ~ s == 0 -> exists r, div_all l s = Ok r.
Proof.
  intro N. unfold div_all. induction l as [|x l [r IH]]; cbn [mapM]; [eauto|].
  unfold qdiv at 1. destruct (Qeq_bool s 0) eqn:E; [apply Qeq_bool_iff in E; tauto|].
  cbn [bind]. rewrite IH. cbn [bind]. eauto.
Qed.

Lemma normalize_iff c n : (exists l, normalize_shapes c n = Ok l) <-> one_per_use c n.
Proof.
  unfold normalize_shapes, one_per_use. destruct c as [[l|l]|].
  - split; [|tauto]. intros [x H].
    match type of H with (if ?b then _ else _) = _ => destruct b; discriminate end.
  - destruct (Nat.eqb (length l) n) eqn:E; cbn [negb].
    + apply Nat.eqb_eq in E. split; eauto.
    + apply Nat.eqb_neq in E. split; [intros [x H]; discriminate|tauto].
  - split; eauto.
Qed.

(** A use on its own is [compute_single] of its entries. *)
Lemma alone lib ty m cp ca cz gp std br doat din :
  from_building_type lib (One ty) (One m) cz gp std br (as_single cp) (as_single ca) false doat din =
  do x <- compute_single lib ty m cp ca gp std br; Ok (sub_building cz ty x doat din).
Proof.
  unfold from_building_type. cbv zeta.
  destruct cp as [cp|], ca as [ca|]; cbn [as_single bind];
    destruct (compute_single lib ty m _ _ gp std br) as [[[g p] a]|e]; reflexivity.
Qed.

Definition tail_many (c : option (one_or_many (list Q) (list (option (list Q))))) :=
  match c with Some (Many l) => Some (Many (tl l)) | x => x end.

(** The loop, when every entry computes. *)
Lemma compute_all_total lib gp std br : forall tys ms cps cas,
  length ms = length tys -> length cps = length tys -> length cas = length tys ->
  (forall i ty m cp ca, nth_error tys i = Some ty -> nth_error ms i = Some m ->
     nth_error cps i = Some cp -> nth_error cas i = Some ca ->
     exists x, compute_single lib ty m cp ca gp std br = Ok x) ->
  exists subs, compute_all lib tys ms cps cas gp std br = Ok subs.
Proof.
  induction tys as [|ty tys IH]; intros [|m ms] [|cp cps] [|ca cas] L1 L2 L3 H;
    cbn [length] in *; try discriminate.
  - cbn. eauto.
  - cbn [compute_all]. destruct (H 0%nat ty m cp ca) as [x ->]; try reflexivity. cbn [bind].
    destruct (IH ms cps cas) as [r ->]; try lia.
    { intros i ty' m' cp' ca' E1 E2 E3 E4. apply (H (S i)); assumption. }
    cbn [bind]. eauto.
Qed.

(** The loop stops at the first entry that does not compute. *)
Lemma compute_all_err lib gp std br e : forall i tys ms cps cas ty m cp ca,
  length ms = length tys -> length cps = length tys -> length cas = length tys ->
  nth_error tys i = Some ty -> nth_error ms i = Some m ->
  nth_error cps i = Some cp -> nth_error cas i = Some ca ->
  compute_single lib ty m cp ca gp std br = Err e ->
  (forall j ty m cp ca, (j < i)%nat -> nth_error tys j = Some ty -> nth_error ms j = Some m ->
     nth_error cps j = Some cp -> nth_error cas j = Some ca ->
     exists x, compute_single lib ty m cp ca gp std br = Ok x) ->
  compute_all lib tys ms cps cas gp std br = Err e.
Proof.
  induction i as [|i IH]; intros [|ty0 tys] [|m0 ms] [|cp0 cps] [|ca0 cas] ty m cp ca L1 L2 L3 E1 E2 E3 E4 C H;
    cbn [length nth_error] in *; try discriminate; cbn [compute_all].
  - inversion E1; inversion E2; inversion E3; inversion E4; subst. rewrite C. reflexivity.
  - destruct (H 0%nat ty0 m0 cp0 ca0) as [x ->]; try reflexivity; [lia|]. cbn [bind].
    rewrite (IH tys ms cps cas ty m cp ca); try assumption; try lia; [reflexivity|].
    intros j ty' m' cp' ca' Hj F1 F2 F3 F4. apply (H (S j)); try assumption. lia.
Qed.

(** [zip] of the types and the computed entries. *)
Definition subs_of cz doat din (tys : list (option string)) (xs : list (Q * list Q * list Q)) : list building :=
  map (fun p => sub_building cz (fst p) (snd p) doat din) (combine tys xs).

Lemma subs_of_length cz doat din tys xs : length xs = length tys -> length (subs_of cz doat din tys xs) = length tys.
Proof. intro L. unfold subs_of. rewrite map_length, combine_length, L. apply Nat.min_id. Qed.

Lemma subs_of_nth cz doat din : forall tys xs i ty x,
  nth_error tys i = Some ty -> nth_error xs i = Some x ->
  nth_error (subs_of cz doat din tys xs) i = Some (sub_building cz ty x doat din).
Proof.
  induction tys as [|t tys IH]; intros [|y xs] [|i] ty x E1 E2; cbn [nth_error] in *; try discriminate.
  - inversion E1; inversion E2; subst. reflexivity.
  - unfold subs_of. cbn [combine map nth_error]. apply IH; assumption.
Qed.

Lemma subs_of_map {B} cz doat din (G : building -> B) (F : Q * list Q * list Q -> B) :
  (forall ty x, G (sub_building cz ty x doat din) = F x) ->
  forall tys xs, length xs = length tys -> map G (subs_of cz doat din tys xs) = map F xs.
Proof.
  intros H. induction tys as [|t tys IH]; intros [|x xs] L; cbn [length] in L; try discriminate; [reflexivity|].
  unfold subs_of. cbn [combine map fst snd]. rewrite H. f_equal. apply IH. lia.
Qed.

Lemma nth_ex {A} (l : list A) i n : length l = n -> (i < n)%nat -> exists x, nth_error l i = Some x.
Proof.
  intros L H. destruct (nth_error l i) eqn:E; [eauto|]. apply nth_error_None in E. lia.
Qed.

Lemma nth_ext_error {A} : forall (l l' : list A), length l = length l' ->
  (forall i x y, nth_error l i = Some x -> nth_error l' i = Some y -> x = y) -> l = l'.
Proof.
  induction l as [|a l IH]; intros [|b l'] L H; cbn [length] in L; try discriminate; [reflexivity|].
  f_equal; [apply (H 0%nat); reflexivity|]. apply IH; [lia|]. intros i x y E1 E2. apply (H (S i)); assumption.
Qed.

Lemma custom_total c n i : one_per_use c n -> (i < n)%nat -> exists x, custom_at c i = Some x.
Proof.
  unfold one_per_use, custom_at. destruct c as [[l|l]|]; [tauto| |eauto].
  intros L H. apply (nth_ex l i n L H).
Qed.

(** The multi-use construction, in terms of the parts. *)
Lemma multi_builds lib tys ms cz cps cas gp std br doat din :
  (exists b, from_multi_use lib tys (Many ms) cz cps cas gp std br doat din = Ok b) <->
  tys <> [] /\ length ms = length tys /\ one_per_use cps (length tys) /\ one_per_use cas (length tys) /\
  exists subs, built_alone lib tys ms cz gp std br cps cas doat din subs /\
    same_length (map bd_peak subs) /\ same_length (map bd_avg subs) /\
    (~ qsum (map bd_daily subs) == 0 \/ forall s, In s subs -> bd_peak s = [] /\ bd_avg s = []).
Proof.
  split.
  - intros [b H]. destruct (multi_inv _ _ _ _ _ _ _ _ _ _ _ _ H)
      as (cpl & cal & xs & sp & sa & L0 & N1 & N2 & CA & NE & Bp & Ba & Dp & Da & Dd & Ty & _).
    pose proof (normalize_length _ _ _ N1) as LP. pose proof (normalize_length _ _ _ N2) as LA.
    destruct (compute_all_nth _ _ _ _ _ _ _ _ _ CA L0 LP LA) as [LS NTH].
    split; [intros ->; destruct xs; [congruence|discriminate]|]. split; [exact L0|].
    split; [apply normalize_iff; eauto|]. split; [apply normalize_iff; eauto|].
    exists (subs_of cz doat din tys xs).
    assert (MP : map bd_peak (subs_of cz doat din tys xs) = map (fun x => snd (fst x)) xs)
      by (apply subs_of_map; [reflexivity|exact LS]).
    assert (MA : map bd_avg (subs_of cz doat din tys xs) = map (fun x => snd x) xs)
      by (apply subs_of_map; [reflexivity|exact LS]).
    assert (MD : map bd_daily (subs_of cz doat din tys xs) = map (fun x => fst (fst x)) xs)
      by (apply subs_of_map; [reflexivity|exact LS]).
    assert (LENP : forall x, In x (map (fun x : Q * list Q * list Q => snd (fst x)) xs) -> length x = length sp).
    { intros s Hs. apply in_map_iff in Hs. destruct Hs as (x & <- & Hx).
      apply (proj1 (blend_sum_ok _ _ Bp) (fst (fst x))). apply in_map_iff. eauto. }
    assert (LENA : forall x, In x (map (fun x : Q * list Q * list Q => snd x) xs) -> length x = length sa).
    { intros s Hs. apply in_map_iff in Hs. destruct Hs as (x & <- & Hx).
      apply (proj1 (blend_sum_ok _ _ Ba) (fst (fst x))). apply in_map_iff. eauto. }
    split; [|split; [|split]].
    + split; [apply subs_of_length; exact LS|].
      intros i ty m cp ca s E1 E2 E3 E4 E5.
      assert (Hi : (i < length tys)%nat) by (apply nth_error_Some; congruence).
      destruct (normalize_at _ _ _ _ N1 Hi) as [_ X1]. destruct (normalize_at _ _ _ _ N2 Hi) as [_ X2].
      destruct (NTH i ty m cp ca E1 E2) as (x & Ex & Cx); [congruence|congruence|].
      rewrite (subs_of_nth cz doat din tys xs i ty x E1 Ex) in E5. inversion E5; subst.
      apply single_is_sub. exact Cx.
    + rewrite MP. exists (length sp). exact LENP.
    + rewrite MA. exists (length sa). exact LENA.
    + rewrite MD, <- Dd. destruct (div_all_inv _ _ _ Dp) as [E|[NZ _]]; [|left; exact NZ].
      destruct (div_all_inv _ _ _ Da) as [E'|[NZ _]]; [|left; exact NZ].
      right. intros s Hs. subst.
      split; apply length_zero_iff_nil; [apply LENP; rewrite <- MP|apply LENA; rewrite <- MA]; apply in_map; exact Hs.
  - intros (NE & L0 & O1 & O2 & subs & [LS B] & [np SP] & [na SA] & T).
    destruct (proj2 (normalize_iff _ _) O1) as [cpl N1]. destruct (proj2 (normalize_iff _ _) O2) as [cal N2].
    pose proof (normalize_length _ _ _ N1) as LP. pose proof (normalize_length _ _ _ N2) as LA.
    destruct (compute_all_total lib gp std br tys ms cpl cal L0 LP LA) as [xs CA].
    { intros i ty m cp ca E1 E2 E3 E4.
      assert (Hi : (i < length tys)%nat) by (apply nth_error_Some; congruence).
      destruct (normalize_at _ _ _ _ N1 Hi) as [_ X1]. destruct (normalize_at _ _ _ _ N2 Hi) as [_ X2].
      destruct (nth_ex subs i _ LS Hi) as [s Es].
      assert (F := B i ty m cp ca s E1 E2 ltac:(congruence) ltac:(congruence) Es).
      rewrite alone in F. destruct (compute_single lib ty m cp ca gp std br) as [x|]; [eauto|discriminate]. }
    destruct (compute_all_nth _ _ _ _ _ _ _ _ _ CA L0 LP LA) as [LX NTH].
    assert (SUB : subs = subs_of cz doat din tys xs).
    { apply nth_ext_error; [rewrite subs_of_length; congruence|]. intros i s s' E E'.
      assert (Hi : (i < length tys)%nat) by (rewrite <- LS; apply nth_error_Some; congruence).
      destruct (nth_ex tys i _ eq_refl Hi) as [ty E1]. destruct (nth_ex ms i _ L0 Hi) as [m E2].
      destruct (nth_ex cpl i _ LP Hi) as [cp E3]. destruct (nth_ex cal i _ LA Hi) as [ca E4].
      destruct (normalize_at _ _ _ _ N1 Hi) as [_ X1]. destruct (normalize_at _ _ _ _ N2 Hi) as [_ X2].
      assert (F := B i ty m cp ca s E1 E2 ltac:(congruence) ltac:(congruence) E).
      destruct (NTH i ty m cp ca E1 E2 E3 E4) as (x & Ex & Cx). rewrite alone, Cx in F. cbn [bind] in F.
      rewrite (subs_of_nth cz doat din tys xs i ty x E1 Ex) in E'. congruence. }
    assert (MP : map bd_peak subs = map (fun x => snd (fst x)) xs)
      by (subst subs; apply subs_of_map; [reflexivity|exact LX]).
    assert (MA : map bd_avg subs = map (fun x => snd x) xs)
      by (subst subs; apply subs_of_map; [reflexivity|exact LX]).
    assert (MD : map bd_daily subs = map (fun x => fst (fst x)) xs)
      by (subst subs; apply subs_of_map; [reflexivity|exact LX]).
    assert (NX : xs <> []).
    { intros ->. destruct tys; [congruence|discriminate]. }
    destruct (blend_total np (map (fun x => (fst (fst x), snd (fst x))) xs)) as (sp & Bp & Lsp).
    { destruct xs; [congruence|discriminate]. }
    { intros p Hp. apply in_map_iff in Hp. destruct Hp as (x & <- & Hx). cbn [snd]. apply SP. rewrite MP.
      apply in_map_iff. eauto. }
    destruct (blend_total na (map (fun x => (fst (fst x), snd x)) xs)) as (sa & Ba & Lsa).
    { destruct xs; [congruence|discriminate]. }
    { intros p Hp. apply in_map_iff in Hp. destruct Hp as (x & <- & Hx). cbn [snd]. apply SA. rewrite MA.
      apply in_map_iff. eauto. }
    set (tot := qsum (map (fun x => fst (fst x)) xs)).
    assert (DV : exists bp ba, div_all sp tot = Ok bp /\ div_all sa tot = Ok ba).
    { destruct T as [T|T].
      - rewrite MD in T. fold tot in T. destruct (div_all_nz sp tot T) as [bp ->].
        destruct (div_all_nz sa tot T) as [ba ->]. eauto.
      - assert (np = 0%nat /\ na = 0%nat) as [-> ->].
        { destruct subs as [|s subs]; [destruct tys; [congruence|discriminate]|].
          destruct (T s (or_introl eq_refl)) as [P A]. cbn [map] in SP, SA.
          rewrite <- (SP _ (or_introl eq_refl)), <- (SA _ (or_introl eq_refl)), P, A. auto. }
        apply length_zero_iff_nil in Lsp, Lsa. subst. exists [], []. auto. }
    destruct DV as (bp & ba & D1 & D2).
    unfold from_multi_use. cbv zeta. rewrite (proj2 (Nat.eqb_eq _ _) L0). cbn [negb].
    rewrite N1. cbn [bind]. rewrite N2. cbn [bind]. rewrite CA. cbn [bind].
    destruct xs as [|x xs]; [congruence|]. fold tot. rewrite Bp. cbn [bind]. rewrite D1. cbn [bind].
    rewrite Ba. cbn [bind]. rewrite D2. cbn [bind]. eauto.
Qed.

Lemma multi_first_error lib tys ms cz cps cas gp std br doat din i ty m cp ca e :
  length ms = length tys -> one_per_use cps (length tys) -> one_per_use cas (length tys) ->
  nth_error tys i = Some ty -> nth_error ms i = Some m ->
  custom_at cps i = Some cp -> custom_at cas i = Some ca ->
  from_building_type lib (One ty) (One m) cz gp std br (as_single cp) (as_single ca) false doat din = Err e ->
  (forall j ty m cp ca, (j < i)%nat -> nth_error tys j = Some ty -> nth_error ms j = Some m ->
     custom_at cps j = Some cp -> custom_at cas j = Some ca ->
     exists s, from_building_type lib (One ty) (One m) cz gp std br (as_single cp) (as_single ca) false doat din = Ok s) ->
  from_multi_use lib tys (Many ms) cz cps cas gp std br doat din = Err e.
Proof.
  intros L0 O1 O2 E1 E2 E3 E4 F H.
  destruct (proj2 (normalize_iff _ _) O1) as [cpl N1]. destruct (proj2 (normalize_iff _ _) O2) as [cal N2].
  pose proof (normalize_length _ _ _ N1) as LP. pose proof (normalize_length _ _ _ N2) as LA.
  assert (Hi : (i < length tys)%nat) by (apply nth_error_Some; congruence).
  assert (AT : forall k, (k < length tys)%nat -> nth_error cpl k = custom_at cps k /\ nth_error cal k = custom_at cas k).
  { intros k Hk. destruct (normalize_at _ _ _ _ N1 Hk) as [_ X1]. destruct (normalize_at _ _ _ _ N2 Hk) as [_ X2]. auto. }
  destruct (AT i Hi) as [X1 X2].
  unfold from_multi_use. cbv zeta. rewrite (proj2 (Nat.eqb_eq _ _) L0). cbn [negb].
  rewrite N1. cbn [bind]. rewrite N2. cbn [bind].
  rewrite (compute_all_err lib gp std br e i tys ms cpl cal ty m cp ca); try assumption; try congruence; [reflexivity| |].
  - rewrite alone in F. destruct (compute_single lib ty m cp ca gp std br); cbn [bind] in F; congruence.
  - intros j ty' m' cp' ca' Hj F1 F2 F3 F4. destruct (AT j) as [Y1 Y2]; [lia|].
    destruct (H j ty' m' cp' ca' Hj F1 F2) as [s Fs]; [congruence|congruence|].
    rewrite alone in Fs. destruct (compute_single lib ty' m' cp' ca' gp std br); [eauto|discriminate].
Qed.

(** ** Buildings given by their shape alone *)

Lemma div_all_eq l s : ~ s == 0 -> div_all l s = Ok (map (fun x => x / s) l).
Proof.
  intro N. destruct (div_all_nz l s N) as [r E]. rewrite E. destruct (div_all_inv _ _ _ E) as [->|[_ ->]]; [|reflexivity].
  cbn in E. inversion E. reflexivity.
Qed.

Lemma div_all_zero l s : s == 0 -> l <> [] -> div_all l s = Err ZeroDivisionError.
Proof.
  intros Z N. destruct l as [|x l]; [congruence|]. unfold div_all. cbn [mapM]. unfold qdiv at 1.
  rewrite (proj2 (Qeq_bool_iff _ _) Z). reflexivity.
Qed.

Lemma shape_only lib m raw cz ca gp std br annual doat din b :
  raw <> [] ->
  (from_building_type lib (One None) (One m) cz gp std br (Some (One raw)) (as_single ca) annual doat din = Ok b <->
   annual = false /\
   bd_type b = "custom"%string /\
   bd_climate b = bd_climate (bd_new cz 0 [] [] "" doat din) /\
   bd_daily b = match m with Some x => x | None => qsum raw end /\
   (if match m with Some _ => qltb (1 # 1000) (Qabs (qsum raw - 1)) | None => true end
    then ~ qsum raw == 0 /\ bd_peak b = map (fun x => x / qsum raw) raw
    else valid_shape raw /\ bd_peak b = raw) /\
   match ca with
   | None => bd_avg b = bd_peak b
   | Some [] => False
   | Some ra => ~ qsum ra == 0 /\ bd_avg b = map (fun x => x / qsum ra) ra /\ valid_shape (bd_avg b)
   end).
Proof.
  intro N.
  assert (E : from_building_type lib (One None) (One m) cz gp std br (Some (One raw)) (as_single ca) annual doat din =
    (do x <- compute_single lib None m (Some raw) ca gp std br;
     if annual then Err ValueError else Ok (sub_building cz None x doat din))).
  { unfold from_building_type. cbv zeta. destruct ca as [ca|]; cbn [as_single bind];
      destruct (compute_single lib None m (Some raw) _ gp std br) as [[[g p] a]|e]; try reflexivity;
      cbn [bind]; destruct annual; reflexivity. }
  rewrite E. clear E.
  set (resc := match m with Some _ => qltb (1 # 1000) (Qabs (qsum raw - 1)) | None => true end).
  assert (C : compute_single lib None m (Some raw) ca gp std br =
    do p <- (if resc then div_all raw (qsum raw) else do _ <- validate_load_shape raw; Ok raw);
    do a <- match ca with None => Ok p | Some ra => do a <- div_all ra (qsum ra); do _ <- validate_load_shape a; Ok a end;
    Ok (match m with Some x => x | None => qsum raw end, p, a)).
  { unfold compute_single, resc. cbv zeta. destruct m as [m|].
    - destruct (qltb (1 # 1000) (Qabs (qsum raw - 1))).
      + destruct (div_all raw (qsum raw)); cbn [bind]; [|reflexivity].
        destruct ca as [ra|]; [|reflexivity].
        destruct (div_all ra (qsum ra)); cbn [bind]; [|reflexivity]. destruct (validate_load_shape _); reflexivity.
      + destruct (validate_load_shape raw); cbn [bind]; [|reflexivity].
        destruct ca as [ra|]; [|reflexivity].
        destruct (div_all ra (qsum ra)); cbn [bind]; [|reflexivity]. destruct (validate_load_shape _); reflexivity.
    - destruct (div_all raw (qsum raw)); cbn [bind]; [|reflexivity].
      destruct ca as [ra|]; [|reflexivity].
      destruct (div_all ra (qsum ra)); cbn [bind]; [|reflexivity]. destruct (validate_load_shape _); reflexivity. }
  rewrite C. clear C. generalize (match m with Some x => x | None => qsum raw end) as g. intro g.
  clearbody resc.
  assert (PK : forall p, (if resc then div_all raw (qsum raw) else do _ <- validate_load_shape raw; Ok raw) = Ok p <->
     if resc then ~ qsum raw == 0 /\ p = map (fun x => x / qsum raw) raw else valid_shape raw /\ p = raw).
  { intro p. destruct resc.
    - split.
      + intro H. destruct (div_all_inv _ _ _ H) as [|K]; [congruence|exact K].
      + intros [NZ ->]. apply div_all_eq. exact NZ.
    - split.
      + intro H. destruct (validate_load_shape raw) as [[]|] eqn:V; [|discriminate]. cbn [bind] in H.
        apply validate_iff in V. assert (raw = p) by congruence. subst p. split; [exact V|reflexivity].
      + intros [V ->]. apply validate_iff in V. rewrite V. reflexivity. }
  assert (AK : forall p a, match ca with None => Ok p | Some ra => do a <- div_all ra (qsum ra); do _ <- validate_load_shape a; Ok a end = Ok a <->
     match ca with
     | None => a = p
     | Some [] => False
     | Some ra => ~ qsum ra == 0 /\ a = map (fun x => x / qsum ra) ra /\ valid_shape a
     end).
  { intros p a. destruct ca as [[|x ra]|].
    - cbn. split; [discriminate|tauto].
    - set (r := x :: ra). split.
      + intro H. destruct (bind_ok _ _ _ H) as (y & D & H1). destruct (bind_ok _ _ _ H1) as ([] & V & H2).
        inversion H2; subst y. apply validate_iff in V.
        destruct (div_all_inv _ _ _ D) as [K|[K1 K2]]; [discriminate|].
        split; [exact K1|]. split; [exact K2|exact V].
      + intros (NZ & -> & V). rewrite (div_all_eq r _ NZ). cbn [bind].
        apply validate_iff in V. rewrite V. reflexivity.
    - split; [intro H; inversion H; reflexivity|intros ->; reflexivity]. }
  split.
  - intro H. destruct (bind_ok _ _ _ H) as ([[g' p] a] & H1 & H2). clear H.
    destruct (bind_ok _ _ _ H1) as (p' & Ep & H3). destruct (bind_ok _ _ _ H3) as (a' & Ea & H4).
    inversion H4; subst g' p' a'. apply PK in Ep. apply AK in Ea.
    destruct annual; [discriminate|]. inversion H2; subst b. unfold sub_building, bd_new.
    cbn [bd_type bd_climate bd_daily bd_peak bd_avg fst snd].
    split; [reflexivity|]. split; [reflexivity|]. split; [reflexivity|]. split; [reflexivity|].
    split; [exact Ep|]. destruct ca as [[|x ra]|]; assumption.
  - intros (-> & Et & Ec & Ed & Ep & Ea).
    apply PK in Ep. rewrite Ep. cbn [bind].
    assert (Ea' := proj2 (AK (bd_peak b) (bd_avg b))). rewrite Ea'; [|destruct ca as [[|x ra]|]; assumption].
    cbn [bind]. f_equal. destruct b as [bc bd bp ba bt]. cbn [bd_type bd_climate bd_daily bd_peak bd_avg] in *.
    subst. unfold sub_building, bd_new. cbn [fst snd bd_climate]. reflexivity.
Qed.
