(** C64: the location argument. *)
From Coq Require Import Ascii.
From Verif Require Import Prelude M_Building L_Building M_Heater M_Sizing M_Step M_Swing M_MPRTP M_Engine S_Engine S_Location
  L_Engine2 L_Engine4 L_Engine5 D_Climate P_Sizing P_Engine.
Open Scope Q_scope.

(** ** C64 Location argument *)

(** The climate of a constructed engine's building is the one its location argument stands for. *)
Theorem C64_location : forall dt p e, tables_sound dt -> argument (ep_cz p) -> eng_new dt p = Ok e ->
  exists c, site dt (ep_cz p) c /\ bd_climate (en_building e) = Some c.
Proof.
  intros dt p e T A H. destruct (new_kept _ _ _ H) as (b & EB & K & _). destruct (built_climate _ _ _ EB) as (c & EC & B).
  exists c. split; [apply climate_site; assumption|congruence].
Qed.
Print Assumptions C64_location.

(** It stands for one climate only. *)
Theorem C64_unique : forall dt v c c', tables_sound dt -> argument v -> site dt v c -> site dt v c' -> c = c'.
Proof. intros dt v c c' T A S S'. apply (climate_site _ _ _ T A) in S, S'. congruence. Qed.
Print Assumptions C64_unique.

(** An argument that stands for none is refused: TypeError for a dictionary with an unknown key,
    ValueError otherwise. *)
Theorem C64_rejects : forall dt p, tables_sound dt -> argument (ep_cz p) -> (forall c, ~ site dt (ep_cz p) c) ->
  eng_new dt p = Err ValueError \/
  (eng_new dt p = Err TypeError /\ exists d k w, ep_cz p = CzDict d /\ In (k, w) d /\
     k <> "design_oat_f"%string /\ k <> "design_inlet_water_temp_f"%string).
Proof.
  intros dt p T A N. destruct (eng_climate dt (ep_cz p)) as [c|x] eqn:E; [apply (climate_site _ _ _ T A) in E; exfalso; exact (N c E)|].
  assert (R : eng_new dt p = Err x) by (unfold eng_new, eng_building; rewrite E; reflexivity).
  destruct (climate_err _ _ _ T E) as [-> |(-> & d & -> & k & w & I)]; [left; exact R|]. right. split; [exact R|]. exists d, k, w. auto.
Qed.
Print Assumptions C64_rejects.

(** Documented, but refused: a zip code given as an integer, whatever the tables hold. *)
Theorem C64_integer_zip_refuted : forall dt p z, ep_cz p = CzInt z -> (96 < z)%Z -> eng_new dt p = Err ValueError.
Proof.
  intros dt p z E Z. unfold eng_new, eng_building. rewrite E. cbn [eng_climate]. replace (z <=? 96)%Z with false by (symmetry; apply Z.leb_gt; exact Z).
  rewrite andb_false_r. reflexivity.
Qed.
Print Assumptions C64_integer_zip_refuted.

(** The shipped tables are sound: 2708 zip codes and 77 stations, each once; twelve inlet temperatures
    for each of the 96 zones; and no station name looks like a zip code or has blanks around it. *)
Theorem C64_shipped : table_sound shipped_zips /\ table_sound shipped_stations /\ columns96 shipped_inlet /\
  length shipped_inlet = 12%nat /\ Z.of_nat (length shipped_zips) = 2708%Z /\ length shipped_stations = 77%nat /\
  (forall s z, In (s, z) shipped_zips -> zip_code s) /\
  (forall s z, In (s, z) shipped_stations -> ~ zip_code s /\ trim s s).
Proof.
  assert (ND : forall t, (fix nd l := match l with [] => true | x :: r => (negb (mem x r) && nd r)%bool end) t = true -> NoDup t).
  { induction t as [|x r IH]; intro B; constructor; apply andb_true_iff in B; destruct B as [B1 B2]; [|exact (IH B2)].
    intro I. apply mem_in in I. rewrite I in B1. discriminate. }
  assert (ZR : forall t : list (string * Z), forallb (fun kz => ((1 <=? snd kz) && (snd kz <=? 96))%Z) t = true -> forall k z, In (k, z) t -> (1 <= z <= 96)%Z).
  { intros t H k z I. rewrite forallb_forall in H. specialize (H (k, z) I). cbn [snd] in H. apply andb_true_iff in H. destruct H as [A B]. apply Z.leb_le in A, B. auto. }
  split; [split; [apply ND; vm_compute; reflexivity|apply ZR; vm_compute; reflexivity]|].
  split; [split; [apply ND; vm_compute; reflexivity|apply ZR; vm_compute; reflexivity]|].
  split. { apply Forall_forall. intros row I. assert (C : forallb (fun r => (length r =? 96)%nat) shipped_inlet = true) by (vm_compute; reflexivity).
    rewrite forallb_forall in C. apply Nat.eqb_eq. exact (C row I). }
  split; [reflexivity|]. split; [vm_compute; reflexivity|]. split; [reflexivity|]. split.
  - intros s z I. apply zip_spec. assert (C : forallb (fun kz => (isdigit (fst kz) && (String.length (fst kz) =? 5)%nat)%bool) shipped_zips = true) by (vm_compute; reflexivity).
    rewrite forallb_forall in C. exact (C (s, z) I).
  - intros s z I. assert (C : forallb (fun kz => (negb (isdigit (fst kz) && (String.length (fst kz) =? 5)%nat) && String.eqb (strip (fst kz)) (fst kz))%bool) shipped_stations = true) by (vm_compute; reflexivity).
    rewrite forallb_forall in C. specialize (C (s, z) I). cbn [fst] in C. apply andb_true_iff in C. destruct C as [C1 C2]. split.
    + intro H. apply zip_spec in H. rewrite H in C1. discriminate.
    + apply String.eqb_eq in C2. pose proof (strip_trim s) as T. rewrite C2 in T. exact T.
Qed.
Print Assumptions C64_shipped.

(** So with the shipped tables every listed zip code, station and zone number has its weather. *)
Theorem C64_shipped_sites : forall dt, da_zips dt = shipped_zips -> da_stations dt = shipped_stations ->
  da_inlet dt = shipped_inlet -> columns96 (da_oat dt) ->
  tables_sound dt /\
  (forall s z, In (s, z) shipped_zips \/ In (s, z) shipped_stations -> exists c, site dt (CzStr s) c /\ zone_weather dt z c) /\
  (forall z, (1 <= z <= 96)%Z -> exists c, site dt (CzInt z) c /\ zone_weather dt z c).
Proof.
  intros dt EZ ES EI CO. destruct C64_shipped as (TZ & TS & CI & _ & _ & _ & ZZ & SS).
  assert (T : tables_sound dt) by (unfold tables_sound; rewrite EZ, ES, EI; auto). split; [exact T|].
  assert (W : forall z, (1 <= z <= 96)%Z -> exists c, zone_weather dt z c).
  { intros z Z. destruct (zone_total dt z Z CO) as [c E]; [rewrite EI; exact CI|]. exists c. apply zone_of; [lia|exact E]. }
  split.
  - intros s z [I|I].
    + destruct (W z (proj2 TZ _ _ I)) as [c C]. exists c. split; [|exact C]. apply (site_zip dt s z c); [exact (ZZ _ _ I)|rewrite EZ; exact I|exact C].
    + destruct (W z (proj2 TS _ _ I)) as [c C]. exists c. split; [|exact C]. destruct (SS _ _ I) as [N R]. apply (site_station dt s s z c N R); [rewrite ES; exact I|exact C].
  - intros z Z. destruct (W z Z) as [c C]. exists c. split; [|exact C]. apply site_zone; [lia|exact C].
Qed.
Print Assumptions C64_shipped_sites.

(** Not every shipped inlet temperature is liquid water: a documented station's mains fall to 24.8 degrees F. *)
Theorem C64_frozen_mains_refuted : exists s z col, In (s, z) shipped_stations /\ zone_column shipped_inlet z col /\
  In (124 # 5) col /\ 124 # 5 < 32.
Proof.
  exists "MT - Sidney-Richland Muni AP"%string, 94%Z. eexists. split; [|split; [|split]].
  - apply lookup_in. vm_compute. reflexivity.
  - apply column_of; [lia|]. vm_compute. reflexivity.
  - cbn [In]. do 2 right. left. reflexivity.
  - reflexivity.
Qed.
Print Assumptions C64_frozen_mains_refuted.

(** A single multi-family building without a per-person demand is always refused. *)
Theorem C64_multi_family_needs_gpdpp : forall dt p, ep_type p = One (Some "multi_family"%string) -> ep_gpdpp p = None ->
  forall e, eng_new dt p <> Ok e.
Proof.
  intros dt p ET EG e H. destruct (new_kept _ _ _ H) as (b & EB & _). unfold eng_building in EB. destruct (bind_ok _ _ _ EB) as (c & _ & H1). clear EB.
  unfold from_building_type in H1. rewrite ET, EG in H1. cbv zeta in H1.
  destruct (bind_ok _ _ _ H1) as (cp & _ & H2). destruct (bind_ok _ _ _ H2) as (ca & _ & H3). destruct (bind_ok _ _ _ H3) as (m & _ & H4).
  destruct (bind_ok _ _ _ H4) as (x & E & _). unfold compute_single in E. destruct m as [m|]; [|discriminate]. destruct (Qle_bool m 0); discriminate.
Qed.
Print Assumptions C64_multi_family_needs_gpdpp.

(** A station given with blanks around its name, and a zip code. *)
Definition ex_sites : data := mkData [("94103"%string, 3%Z)] [("ID - Boise"%string, 2%Z)] [repeat 40 96] (repeat (repeat 55 96) 12) ex_lib [] (fun _ => 0).
Definition ex_at (v : cz_value) : eparams :=
  mkParams (One None) (One (Some 1000)) v
    120 150 "primary_no_recirc" None (Some (One ex_shape)) None 2 None 16 1 (1 # 2) (1 # 10) None None
    None 0 None None None None None 1 None None None None 1 (175 # 100)
    (Some 500) (Some 100) None None None 1.
Example C64_case : tables_sound ex_sites /\
  (exists e, eng_new ex_sites (ex_at (CzStr " ID - Boise "%string)) = Ok e) /\ (exists e, eng_new ex_sites (ex_at (CzStr "94103"%string)) = Ok e) /\
  (exists e, eng_new ex_sites (ex_at (CzInt 7)) = Ok e) /\ eng_new ex_sites (ex_at (CzStr "Boise"%string)) = Err ValueError.
Proof.
  split.
  - split; [|split; [|split]]; try (repeat constructor).
    + intros [].
    + destruct H as [H|[]]. injection H as <- <-. lia.
    + destruct H as [H|[]]. injection H as <- <-. lia.
    + intros [].
    + destruct H as [H|[]]. injection H as <- <-. lia.
    + destruct H as [H|[]]. injection H as <- <-. lia.
  - split; [eexists; vm_compute; reflexivity|]. split; [eexists; vm_compute; reflexivity|]. split; [eexists; vm_compute; reflexivity|]. vm_compute. reflexivity.
Qed.
Print Assumptions C64_case.
