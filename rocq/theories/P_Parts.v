(** C03/C04, continued: exactly which mixed-use buildings can be built, and what a building given
    by its load shape alone is. *)
From Verif Require Import Prelude M_Building S_Building L_Building S_Parts L_Parts P_Building.

(** *** C04 *)

(** A mixed-use building can be built exactly when it has a use, there is one size per use and
    (when custom shapes are given) one entry per use, every use can be built on its own, the uses'
    shapes have the same number of hours, and the total daily volume is not zero. *)
Theorem C04_builds : forall lib tys ms cz gp std br cps cas annual doat din,
  (length tys <> 1)%nat ->
  ((exists b, from_building_type lib (Many tys) (Many ms) cz gp std br cps cas annual doat din = Ok b) <->
   tys <> [] /\ length ms = length tys /\
   one_per_use cps (length tys) /\ one_per_use cas (length tys) /\
   exists subs, built_alone lib tys ms cz gp std br cps cas doat din subs /\
     same_length (map bd_peak subs) /\ same_length (map bd_avg subs) /\
     (~ qsum (map bd_daily subs) == 0 \/ forall s, In s subs -> bd_peak s = [] /\ bd_avg s = [])).
Proof.
  intros lib tys ms cz gp std br cps cas annual doat din L.
  rewrite <- (multi_builds lib tys ms cz cps cas gp std br doat din).
  unfold from_building_type. cbv zeta.
  destruct tys as [|t [|t2 tys]]; [|cbn in L; congruence|];
    destruct ms as [|m [|m2 ms]]; try reflexivity; cbn; split; intros [b H]; discriminate.
Qed.
Print Assumptions C04_builds.

(** Wrong counts are refused with ValueError before any use is looked at. *)
Theorem C04_counts : forall lib tys ms cz gp std br cps cas annual doat din,
  (length tys <> 1)%nat ->
  (forall m, from_building_type lib (Many tys) (One m) cz gp std br cps cas annual doat din = Err ValueError) /\
  (length ms <> length tys ->
   from_building_type lib (Many tys) (Many ms) cz gp std br cps cas annual doat din = Err ValueError) /\
  (forall l, length l <> length tys ->
   from_building_type lib (Many tys) (Many ms) cz gp std br (Some (Many l)) cas annual doat din = Err ValueError) /\
  (forall l, length l <> length tys -> one_per_use cps (length tys) ->
   from_building_type lib (Many tys) (Many ms) cz gp std br cps (Some (Many l)) annual doat din = Err ValueError).
Proof.
  intros lib tys ms cz gp std br cps cas annual doat din L.
  assert (E : forall cps cas, from_building_type lib (Many tys) (Many ms) cz gp std br cps cas annual doat din =
     from_multi_use lib tys (match Many ms with Many [m] => One m | x => x end) cz cps cas gp std br doat din).
  { intros c1 c2. unfold from_building_type. cbv zeta.
    destruct tys as [|t [|t2 tys]]; [|cbn in L; congruence|]; destruct ms as [|m [|m2 ms]]; reflexivity. }
  rewrite !E.
  split; [|split; [|split]].
  - intro m. unfold from_building_type. cbv zeta.
    destruct tys as [|t [|t2 tys]]; [|cbn in L; congruence|]; reflexivity.
  - intro N. destruct ms as [|m [|m2 ms]]; try reflexivity;
      unfold from_multi_use; cbv zeta; rewrite (proj2 (Nat.eqb_neq _ _) N); reflexivity.
  - intros l N. rewrite E. destruct ms as [|m [|m2 ms]]; try reflexivity;
      unfold from_multi_use; cbv zeta;
      match goal with |- context [negb (Nat.eqb ?a ?b)] => destruct (Nat.eqb a b); [|reflexivity] end;
      cbn [negb normalize_shapes]; rewrite (proj2 (Nat.eqb_neq _ _) N); reflexivity.
  - intros l N O. rewrite E. destruct (proj2 (normalize_iff _ _) O) as [cpl N1].
    destruct ms as [|m [|m2 ms]]; try reflexivity;
      unfold from_multi_use; cbv zeta;
      match goal with |- context [negb (Nat.eqb ?a ?b)] => destruct (Nat.eqb a b); [|reflexivity] end;
      cbn [negb]; rewrite N1; cbn [bind normalize_shapes]; rewrite (proj2 (Nat.eqb_neq _ _) N); reflexivity.
Qed.
Print Assumptions C04_counts.

(** If a use cannot be built on its own, the mixed-use building fails as the first such use
    does. *)
Theorem C04_first_error : forall lib tys ms cz gp std br cps cas annual doat din i ty m cp ca e,
  (length tys <> 1)%nat -> length ms = length tys ->
  one_per_use cps (length tys) -> one_per_use cas (length tys) ->
  nth_error tys i = Some ty -> nth_error ms i = Some m ->
  custom_at cps i = Some cp -> custom_at cas i = Some ca ->
  from_building_type lib (One ty) (One m) cz gp std br (as_single cp) (as_single ca) false doat din = Err e ->
  (forall j ty m cp ca, (j < i)%nat -> nth_error tys j = Some ty -> nth_error ms j = Some m ->
     custom_at cps j = Some cp -> custom_at cas j = Some ca ->
     exists s, from_building_type lib (One ty) (One m) cz gp std br (as_single cp) (as_single ca) false doat din = Ok s) ->
  from_building_type lib (Many tys) (Many ms) cz gp std br cps cas annual doat din = Err e.
Proof.
  intros lib tys ms cz gp std br cps cas annual doat din i ty m cp ca e L LM O1 O2 E1 E2 E3 E4 F H.
  rewrite <- (multi_first_error lib tys ms cz cps cas gp std br doat din i ty m cp ca e LM O1 O2 E1 E2 E3 E4 F H).
  unfold from_building_type. cbv zeta.
  destruct tys as [|t [|t2 tys]]; [|cbn in L; congruence|];
    destruct ms as [|m0 [|m2 ms]]; try discriminate; reflexivity.
Qed.
Print Assumptions C04_first_error.

Example C04_builds_case :
  (exists b, from_building_type ex_lib (Many [Some "multi_family"; Some "motel"]%string) (Many [Some 100; Some 20])
    (Some ex_climate) (Some 25) None None None None false None None = Ok b) /\
  from_building_type ex_lib (Many [Some "multi_family"; Some "castle"]%string) (Many [Some 100; Some 20])
    (Some ex_climate) (Some 25) None None None None false None None = Err ValueError /\
  from_building_type ex_lib (Many [Some "multi_family"; None]%string) (Many [Some 100; Some 20])
    (Some ex_climate) (Some 25) None None (Some (Many [None; Some [3; 1]])) None false None None = Err ValueError.
Proof. split; [eexists; reflexivity|]. split; vm_compute; reflexivity. Qed.

(** *** C03 *)

(** A building given by its load shape alone, completely: it can be built exactly when the stated
    conditions hold, and then it is the stated building.  The shape is divided by its total
    unless a size is given and the total is within 0.001 of 1 (then it must be a valid shape). *)
Theorem C03_shape_only_building : forall lib m raw cz ca gp std br annual doat din b,
  raw <> [] ->
  (from_building_type lib (One None) (One m) cz gp std br (Some (One raw)) (as_single ca) annual doat din = Ok b <->
   annual = false /\
   bd_type b = "custom"%string /\
   bd_climate b = bd_climate (bd_new cz 0 [] [] "" doat din) /\
   bd_daily b = match m with Some x => x | None => qsum raw end /\
   (if match m with Some _ => qltb (1 # 1000) (Qabs (qsum raw - 1)) | None => true end
    then ~ qsum raw == 0 /\ bd_peak b = map (fun x => x / qsum raw) raw
    else valid_shape raw /\ bd_peak b = raw) /\
   match ca with
   | None => bd_avg b = bd_peak b
   | Some [] => False
   | Some ra => ~ qsum ra == 0 /\ bd_avg b = map (fun x => x / qsum ra) ra /\ valid_shape (bd_avg b)
   end).
Proof. exact shape_only. Qed.
Print Assumptions C03_shape_only_building.

(** Without a size the shape is read in gallons: a step of [iv] minutes starting in hour [h]
    draws [iv]/60 of the [h]-th number given. *)
Theorem C03_shape_in_gallons : forall lib raw cz ca gp std br doat din b t iv h,
  raw <> [] ->
  from_building_type lib (One None) (One None) cz gp std br (Some (One raw)) (as_single ca) false doat din = Ok b ->
  in_hour (Z.of_nat (length raw)) iv t h ->
  exists x, bd_load b t iv false = Ok x /\ x == nth (Z.to_nat h) raw 0 * qz iv / 60.
Proof.
  intros lib raw cz ca gp std br doat din b t iv h N H IH.
  apply (shape_only lib None raw cz ca gp std br false doat din b N) in H.
  destruct H as (_ & _ & _ & Ed & [NZ Ep] & _). cbn in Ed.
  eexists. split.
  - apply bd_load_ok. unfold shape_of. rewrite Ep. destruct raw; [congruence|discriminate].
  - unfold load_at. cbv zeta. unfold shape_of. rewrite Ep, map_length.
    assert (LR : (0 < Z.of_nat (length raw))%Z) by (destruct raw; [congruence|cbn [length]; lia]).
    rewrite <- (hour_unique _ _ _ _ LR IH). rewrite Ed.
    assert (K : forall l k, nth k (map (fun x => x / qsum raw) l) 0 * qsum raw == nth k l 0).
    { induction l as [|y l IHl]; intros [|k]; cbn [map nth]; try lra; [field; exact NZ|apply IHl]. }
    rewrite <- (K raw). field.
Qed.
Print Assumptions C03_shape_in_gallons.

(** Without any shape, a building without a type is refused. *)
Theorem C03_shape_needed : forall lib m cz ca gp std br annual doat din,
  from_building_type lib (One None) (One m) cz gp std br None (as_single ca) annual doat din = Err ValueError.
Proof. intros. destruct ca; reflexivity. Qed.
Print Assumptions C03_shape_needed.

Example C03_shape_only_case : exists b,
  from_building_type ex_lib (One None) (One None) None None None None
    (Some (One [30; 50; 20])) None false None None = Ok b /\
  bd_daily b == 100 /\ bd_load b 1 60 false = Ok (100 * (50 / 100) * 60 / 60) /\
  in_hour 3 60 1 1.
Proof.
  eexists. split; [reflexivity|]. split; [reflexivity|]. split; [reflexivity|].
  split; [lia|]. exists 0%Z. lia.
Qed.
