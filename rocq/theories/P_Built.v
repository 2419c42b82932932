(** C83: what a building of one named use type consists of, and when it can be built. *)
From Verif Require Import Prelude M_Building S_Building L_Building D_Building P_Building S_CaGpd S_Built.
Open Scope Q_scope.

Lemma ashrae_iff t u : (exists x, dict_get ashrae_gpd t = Some x /\ x == u) <-> (exists u', In (t, u') type_gallons /\ u == u').
Proof.
  unfold ashrae_gpd, type_gallons. cbn [dict_get In]. split.
  - intros (x & H & E).
    do 11 (match type of H with (if String.eqb t ?k then _ else _) = _ => destruct (String.eqb_spec t k) as [->|_] end;
      [injection H as <-; match type of E with ?v == _ => exists v end; split; [repeat (first [left; reflexivity|right])|symmetry; exact E]|]).
    discriminate H.
  - intros (u' & H & E). repeat (destruct H as [H|H]; [injection H as <- <-; eexists; split; [reflexivity|symmetry; exact E]|]). destruct H.
Qed.
Lemma units_zero l : units_of l == 0 <-> fold_right Z.add 0%Z l = 0%Z.
Proof. unfold units_of, qz. change 0 with (inject_Z 0). split; [apply inject_Z_injective|intros ->; reflexivity]. Qed.

Lemma std_cases k : existsb (String.eqb k) ["ca"; "ashLow"; "ashMed"; "ecoMark"]%string = true <-> k = "ca"%string \/ In k ["ashLow"; "ashMed"; "ecoMark"]%string.
Proof.
  cbn [existsb In]. rewrite !Bool.orb_true_iff, !String.eqb_eq. split.
  - intros [->|[->|[->|[->|N]]]]; auto 6. discriminate N.
  - intros [->|[<-|[<-|[<-|[]]]]]; auto 6.
Qed.

(** The rate of the model is the specified one, and failing to have one raises. *)
Lemma rate_iff lib gp std br m t : 0 < m ->
  let r := if String.eqb t "multi_family"%string then do x <- mf_gpdpp lib gp std br; Ok (x * m)
           else match dict_get ashrae_gpd t with Some x => Ok (x * m) | None => Err ValueError end in
  (forall g, r = Ok g -> exists u, gallons_per_unit lib gp std br t u /\ g == u * m) /\
  (forall u, gallons_per_unit lib gp std br t u -> exists g, r = Ok g /\ g == u * m) /\
  (forall e, r = Err e -> e = ValueError \/ exists k, std = Some k /\ lib_gpdpp lib k = Err e).
Proof.
  intros M. unfold gallons_per_unit. destruct (String.eqb t "multi_family") eqn:T; cbv zeta.
  - destruct std as [k|]; cbn [mf_gpdpp].
    + pose proof (std_cases k) as SC.
      destruct (existsb (String.eqb k) ["ca"; "ashLow"; "ashMed"; "ecoMark"]%string) eqn:EX; cbn [negb].
      * destruct (String.eqb_spec k "ca") as [->|N].
        -- destruct br as [l|].
           ++ destruct (Nat.eqb_spec (length l) 6) as [L|L]; cbn [negb orb].
              ** destruct (Z.eqb_spec (fold_right Z.add 0%Z l) 0) as [Z|Z]; cbn [bind].
                 --- split; [discriminate|]. split; [|intros e H; injection H as <-; left; reflexivity].
                     intros u [(_ & l' & E & _ & NZ & _)|([H|[H|[H|[]]]] & _)]; try discriminate H. injection E as <-. exfalso. apply NZ, units_zero. exact Z.
                 --- split; [|split; [|discriminate]].
                     +++ intros g H. apply ok_inj in H. subst g. exists (lib_ca_gpdpp lib l). split; [|reflexivity]. left. split; [reflexivity|]. exists l. repeat split; try assumption. intro U. apply Z, units_zero. exact U.
                     +++ intros u [(_ & l' & E & _ & _ & ->)|([H|[H|[H|[]]]] & _)]; try discriminate H. injection E as <-. eexists. split; [reflexivity|reflexivity].
              ** split; [discriminate|]. split; [|intros e H; injection H as <-; left; reflexivity].
                 intros u [(_ & l' & E & L' & _)|([H|[H|[H|[]]]] & _)]; try discriminate H. injection E as <-. congruence.
           ++ split; [discriminate|]. split; [|intros e H; injection H as <-; left; reflexivity].
              intros u [(_ & l' & E & _)|([H|[H|[H|[]]]] & _)]; discriminate.
        -- destruct (lib_gpdpp lib k) as [x|e] eqn:LG; cbn [bind].
           ++ split; [|split; [|discriminate]].
              ** intros g H. apply ok_inj in H. subst g. exists x. split; [|reflexivity]. right. split; [|reflexivity]. destruct (proj1 SC eq_refl) as [E|I]; [congruence|exact I].
              ** intros u [(E & _)|(_ & E)]; [congruence|]. apply ok_inj in E. subst u. eexists. split; reflexivity.
           ++ split; [discriminate|]. split; [intros u [(E & _)|(_ & E)]; congruence|]. intros e' H. injection H as <-. right. exists k. split; [reflexivity|exact LG].
      * split; [discriminate|]. split; [|intros e H; injection H as <-; left; reflexivity].
        intros u H. exfalso. assert (X : k = "ca"%string \/ In k ["ashLow"; "ashMed"; "ecoMark"]%string) by (destruct H as [(E & _)|(I & _)]; auto). apply SC in X. discriminate X.
    + destruct gp as [x|]; cbn [bind].
      * split; [|split; [|discriminate]].
        -- intros g H. apply ok_inj in H. subst g. exists x. split; reflexivity.
        -- intros u H. injection H as ->. eexists. split; reflexivity.
      * split; [discriminate|]. split; [discriminate|]. intros e H. injection H as <-. left. reflexivity.
  - pose proof (fun u => ashrae_iff t u) as A. destruct (dict_get ashrae_gpd t) as [x|] eqn:D.
    + split; [|split; [|discriminate]].
      * intros g H. apply ok_inj in H. subst g. exists x. split; [|reflexivity]. apply A. exists x. split; reflexivity.
      * intros u H. apply A in H. destruct H as (x' & E & XE). injection E as <-. eexists. split; [reflexivity|]. rewrite XE. reflexivity.
    + split; [discriminate|]. split; [|intros e H; injection H as <-; left; reflexivity].
      intros u H. apply A in H. destruct H as (x' & E & _). discriminate E.
Qed.

Lemma peak_iff lib t c :
  let r := match c with Some raw => do _ <- validate_load_shape raw; Ok raw | None => do f <- load_file lib t; Ok (sf_stream f) end in
  (forall p, r = Ok p <-> peak_given lib t c p) /\ (forall e, r = Err e -> e = ValueError).
Proof.
  unfold peak_given, load_file. destruct c as [raw|]; cbv zeta.
  - destruct (validate_load_shape raw) as [[]|e] eqn:V; cbn [bind].
    + split; [|discriminate]. intro p. split; [intro H; apply ok_inj in H; subst p; split; [|reflexivity]|intros [_ ->]; reflexivity].
      apply validate_iff. exact V.
    + split.
      * intro p. split; [discriminate|]. intros [A _]. apply validate_iff in A. congruence.
      * intros e' H. injection H as <-. assert (N : ~ valid_shape raw) by (intro A; apply validate_iff in A; congruence). apply validate_err in N. congruence.
  - destruct (lib_file lib t) as [f|]; cbn [bind].
    + split; [|discriminate]. intro p. split; [intro H; apply ok_inj in H; subst p; exists f; auto|intros (f' & E & ->); injection E as <-; reflexivity].
    + split; [|intros e H; injection H as <-; reflexivity]. intro p. split; [discriminate|intros (f' & E & _); discriminate E].
Qed.
Lemma avg_iff lib t c :
  let r := match c with Some raw => do _ <- validate_load_shape raw; Ok raw
           | None => do f <- load_file lib t; Ok (match sf_stream_avg f with Some x => x | None => sf_stream f end) end in
  (forall p, r = Ok p <-> avg_given lib t c p) /\ (forall e, r = Err e -> e = ValueError).
Proof.
  unfold avg_given, load_file. destruct c as [raw|]; cbv zeta.
  - exact (peak_iff lib t (Some raw)).
  - destruct (lib_file lib t) as [f|]; cbn [bind].
    + split; [|discriminate]. intro p. split; [intro H; apply ok_inj in H; subst p; exists f; auto|intros (f' & E & ->); injection E as <-; reflexivity].
    + split; [|intros e H; injection H as <-; reflexivity]. intro p. split; [discriminate|intros (f' & E & _); discriminate E].
Qed.

Lemma climate_new cz g p a t o i : climate_given cz o i (bd_climate (bd_new cz g p a t o i)).
Proof.
  unfold climate_given, bd_new. cbn [bd_climate]. destruct cz as [z|]; [reflexivity|].
  destruct o as [o|]; [right|destruct i as [i|]; [right|left; auto]]; (split; [intros [? ?]; discriminate|]); eexists; repeat split; reflexivity.
Qed.

(** A building of one named type that is constructed has the daily volume of its type and magnitude, the given or the
    library's shapes and the given climate. *)
Theorem C83_built : forall lib t mag cz gp std br cp ca oat inlet b,
  from_building_type lib (One (Some t)) (One mag) cz gp std br (as_single cp) (as_single ca) false oat inlet = Ok b ->
  exists m u, mag = Some m /\ 0 < m /\ gallons_per_unit lib gp std br t u /\ bd_daily b == u * m /\ bd_type b = t /\
    peak_given lib t cp (bd_peak b) /\ avg_given lib t ca (bd_avg b) /\ climate_given cz oat inlet (bd_climate b).
Proof.
  intros lib t mag cz gp std br cp ca oat inlet b H. unfold from_building_type in H. cbv zeta in H.
  assert (SG : forall c, (match as_single c with None => Ok None | Some (One l) => Ok (Some l) | Some (Many _) => Err ValueError end) = Ok c) by (intros [c|]; reflexivity).
  rewrite !SG in H. cbn [bind] in H. apply bind_ok in H. destruct H as ([[g p] a] & CS & H). apply ok_inj in H. subst b.
  unfold compute_single in CS. destruct mag as [m|]; [|discriminate CS]. destruct (Qle_bool m 0) eqn:MB; [discriminate CS|]. qbool.
  destruct (rate_iff lib gp std br m t MB) as (R1 & _ & _). cbv zeta in R1.
  apply bind_ok in CS. destruct CS as (g' & G & CS). apply bind_ok in CS. destruct CS as (p' & PP & CS). apply bind_ok in CS. destruct CS as (a' & AA & CS). apply ok_inj in CS. injection CS as -> -> ->.
  destruct (R1 g G) as (u & U & GE). exists m, u. split; [reflexivity|]. split; [exact MB|]. split; [exact U|]. split; [exact GE|]. split; [reflexivity|].
  split; [exact (proj1 (proj1 (peak_iff lib t cp) p) PP)|]. split; [exact (proj1 (proj1 (avg_iff lib t ca) a) AA)|apply climate_new].
Qed.
Print Assumptions C83_built.

(** It can be constructed from a positive magnitude, a rate and shapes; anything else raises ValueError, except that an
    unknown entry of the library's standards raises whatever that lookup raises. *)
Theorem C83_builds : forall lib t mag cz gp std br cp ca oat inlet,
  (forall m u p a, mag = Some m -> 0 < m -> gallons_per_unit lib gp std br t u -> peak_given lib t cp p -> avg_given lib t ca a ->
     exists b, from_building_type lib (One (Some t)) (One mag) cz gp std br (as_single cp) (as_single ca) false oat inlet = Ok b) /\
  (forall e, from_building_type lib (One (Some t)) (One mag) cz gp std br (as_single cp) (as_single ca) false oat inlet = Err e ->
     e = ValueError \/ exists k, std = Some k /\ lib_gpdpp lib k = Err e).
Proof.
  intros lib t mag cz gp std br cp ca oat inlet. unfold from_building_type. cbv zeta.
  assert (SG : forall c, (match as_single c with None => Ok None | Some (One l) => Ok (Some l) | Some (Many _) => Err ValueError end) = Ok c) by (intros [c|]; reflexivity).
  rewrite !SG. cbn [bind]. unfold compute_single. split.
  - intros m u p a -> M U P A. assert (MB : Qle_bool m 0 = false) by (apply Bool.not_true_is_false; intro C; qbool; lra). rewrite MB.
    destruct (rate_iff lib gp std br m t M) as (_ & R2 & _). cbv zeta in R2. destruct (R2 u U) as (g & G & _). rewrite G. cbn [bind].
    pose proof (proj2 (proj1 (peak_iff lib t cp) p) P) as PE. cbv zeta in PE. rewrite PE. cbn [bind].
    pose proof (proj2 (proj1 (avg_iff lib t ca) a) A) as AE. cbv zeta in AE. rewrite AE. cbn [bind]. eexists. reflexivity.
  - intros e H. destruct mag as [m|]; [|injection H as <-; left; reflexivity]. destruct (Qle_bool m 0) eqn:MB; [injection H as <-; left; reflexivity|]. qbool.
    destruct (rate_iff lib gp std br m t MB) as (_ & _ & R3). cbv zeta in R3.
    match type of H with (do r <- (do g <- ?X; _); _) = _ => destruct X as [g|e'] eqn:G end; [|cbn [bind] in H; injection H as <-; exact (R3 _ eq_refl)].
    cbn [bind] in H. left.
    destruct (peak_iff lib t cp) as [_ P2]. destruct (avg_iff lib t ca) as [_ A2]. cbv zeta in P2, A2.
    match type of P2 with forall e, ?X = _ -> _ => destruct X as [p|e1] eqn:P end; [|cbn [bind] in H; injection H as <-; exact (P2 _ eq_refl)]. cbn [bind] in H.
    match type of A2 with forall e, ?X = _ -> _ => destruct X as [a|e1] eqn:A end; [|cbn [bind] in H; injection H as <-; exact (A2 _ eq_refl)]. discriminate H.
Qed.
Print Assumptions C83_builds.

(** Asked for the annual shape, the same building with both shapes replaced by the library's year of hours; only
    multifamily has one. *)
Theorem C83_annual : forall lib t mag cz gp std br cp ca oat inlet b,
  from_building_type lib (One (Some t)) (One mag) cz gp std br (as_single cp) (as_single ca) true oat inlet = Ok b <->
  exists b0 f year, from_building_type lib (One (Some t)) (One mag) cz gp std br (as_single cp) (as_single ca) false oat inlet = Ok b0 /\
    t = "multi_family"%string /\ lib_file lib t = Some f /\ sf_annual f = Some year /\
    b = mkBuilding (bd_climate b0) (bd_daily b0) year year t.
Proof.
  intros lib t mag cz gp std br cp ca oat inlet b. unfold from_building_type. cbv zeta.
  assert (SG : forall c, (match as_single c with None => Ok None | Some (One l) => Ok (Some l) | Some (Many _) => Err ValueError end) = Ok c) by (intros [c|]; reflexivity).
  rewrite !SG. cbn [bind]. destruct (compute_single lib (Some t) mag cp ca gp std br) as [[[g p] a]|e]; cbn [bind].
  - unfold bd_set_annual, load_file. cbn [bd_new bd_type bd_daily bd_climate]. destruct (String.eqb_spec t "multi_family") as [->|N]; cbn [negb].
    + destruct (lib_file lib "multi_family") as [f|]; cbn [bind].
      * destruct (sf_annual f) as [y|] eqn:Y; split.
        -- intro H. apply ok_inj in H. subst b. do 3 eexists. split; [reflexivity|]. split; [reflexivity|]. split; [reflexivity|]. split; [exact Y|reflexivity].
        -- intros (b0 & f' & y' & H & _ & F & Y' & ->). apply ok_inj in H. subst b0. injection F as <-. rewrite Y in Y'. injection Y' as <-. reflexivity.
        -- discriminate.
        -- intros (b0 & f' & y' & _ & _ & F & Y' & _). injection F as <-. congruence.
      * split; [discriminate|]. intros (b0 & f' & y' & _ & _ & F & _). discriminate F.
    + split; [discriminate|]. intros (b0 & f' & y' & _ & T & _). congruence.
  - split; [discriminate|]. intros (b0 & f' & y' & H & _). discriminate H.
Qed.
Print Assumptions C83_annual.

(** The shipped load shapes as a library (without the annual one, which is not transcribed). *)
Definition shipped_lib (gpd : string -> res Q) (ca : list Z -> Q) : library :=
  mkLibrary (fun t => match dict_get shipped_shapes t with Some (p, a) => Some (mkShapeFile p (Some a) None) | None => None end) gpd ca.

(** With the shipped files each named type can be built from any positive magnitude without further arguments than the
    default figure for multifamily, and has valid shapes. *)
Theorem C83_shipped : forall gpd ca t m cz gp oat inlet, 0 < m -> In t ("multi_family"%string :: map fst type_gallons) ->
  exists b u, from_building_type (shipped_lib gpd ca) (One (Some t)) (One (Some m)) cz (Some gp) None None None None false oat inlet = Ok b /\
    (t = "multi_family"%string /\ u = gp \/ In (t, u) type_gallons) /\ bd_daily b == u * m /\ valid_shape (bd_peak b) /\ valid_shape (bd_avg b).
Proof.
  intros gpd ca t m cz gp oat inlet M T.
  assert (SH : exists p a, In (t, (p, a)) shipped_shapes /\ dict_get shipped_shapes t = Some (p, a)).
  { cbn [map type_gallons fst In] in T. repeat (destruct T as [<-|T]; [do 2 eexists; split; [|reflexivity]; repeat (first [left; reflexivity|right])|]). destruct T. }
  destruct SH as (p & a & IN & DG). destruct (C03_shipped_valid t p a IN) as [VP VA].
  assert (U : exists u, gallons_per_unit (shipped_lib gpd ca) (Some gp) None None t u /\ (t = "multi_family"%string /\ u = gp \/ In (t, u) type_gallons)).
  { cbn [map type_gallons fst In] in T. unfold gallons_per_unit. destruct T as [<-|T]; [exists gp; split; [reflexivity|left; auto]|].
    cbn [In type_gallons].
    repeat (destruct T as [<-|T]; [eexists; split; [cbn [String.eqb Ascii.eqb Bool.eqb]; eexists; split; [|reflexivity]; repeat (first [left; reflexivity|right])|right; repeat (first [left; reflexivity|right])]|]). destruct T. }
  destruct U as (u & U & UT).
  destruct (C83_builds (shipped_lib gpd ca) t (Some m) cz (Some gp) None None None None oat inlet) as [B _].
  assert (LF : lib_file (shipped_lib gpd ca) t = Some (mkShapeFile p (Some a) None)) by (cbn [shipped_lib lib_file]; rewrite DG; reflexivity).
  destruct (B m u p a eq_refl M U) as (b & E); [exists (mkShapeFile p (Some a) None); auto|exists (mkShapeFile p (Some a) None); auto|].
  exists b, u. split; [exact E|]. split; [exact UT|].
  destruct (C83_built _ _ _ _ _ _ _ None None _ _ _ E) as (m' & u' & ME & _ & U' & DE & _ & (f1 & F1 & P1) & (f2 & F2 & P2) & _). injection ME as <-.
  rewrite LF in F1, F2. injection F1 as <-. injection F2 as <-. cbn [sf_stream sf_stream_avg] in P1, P2. rewrite P1, P2. split; [|split; assumption].
  assert (UU : u' == u).
  { unfold gallons_per_unit in U, U'. destruct (String.eqb t "multi_family"); [congruence|]. destruct U as (x & I1 & ->), U' as (y & I2 & ->).
    clear - I1 I2. assert (ND : NoDup (map fst type_gallons)) by (cbn; repeat (constructor; [intro C; repeat (destruct C as [C|C]; [discriminate C|]); destruct C|]); constructor).
    revert I1 I2 ND. generalize type_gallons. induction l as [|[k v] l IH]; intros I1 I2 ND; [destruct I1|]. cbn [map fst] in ND. inversion ND as [|? ? NI ND']; subst.
    assert (OUT : forall z, In (t, z) l -> In t (map fst l)) by (intros z Z; apply in_map_iff; exists (t, z); auto).
    destruct I1 as [E1|I1], I2 as [E2|I2]; [|injection E1 as -> ->; destruct (NI (OUT _ I2))|injection E2 as -> ->; destruct (NI (OUT _ I1))|exact (IH I1 I2 ND')].
    injection E1 as -> ->. injection E2 as ->. reflexivity. }
  rewrite DE, UU. reflexivity.
Qed.
Print Assumptions C83_shipped.

(** A motel of 30 rooms with design temperatures. *)
Example C83_case : exists b, from_building_type (shipped_lib (fun _ => Err KeyError) (fun _ => 0)) (One (Some "motel"%string)) (One (Some 30)) None (Some 25) None None None None false (Some 30) (Some 50) = Ok b /\
  bd_daily b == 642 /\ bd_climate b = Some (cz_from_design (Some 30) (Some 50)).
Proof. eexists. split; [vm_compute; reflexivity|]. split; reflexivity. Qed.
