(** Lemmas for C75: sizing reads nothing an earlier sizing stored. *)
From Verif Require Import Prelude M_StratifiedTank M_Building M_Heater M_Sizing M_Step M_Swing M_Session S_Session
  L_Sizing4 P_Swing2.
Open Scope Q_scope.

(** Two systems with the same settings, whatever they were sized to. *)
Definition same_setup (s s' : dhw) : Prop :=
  dh_supply s = dh_supply s' /\ dh_storage s = dh_storage s' /\ dh_run s = dh_run s' /\ dh_defrost s = dh_defrost s'.

Lemma setup_eq s s' : same_setup s s' ->
  s' = mkDhw (dh_supply s) (dh_storage s) (dh_run s) (dh_defrost s) (dh_min_cap s') (dh_min_stor s') (dh_slope s').
Proof. destruct s, s'. unfold same_setup. cbn. intros (-> & -> & -> & ->). reflexivity. Qed.

Lemma cap_run_setup s s' sched m : same_setup s s' -> same_setup (cap_run s sched m) (cap_run s' sched m).
Proof.
  intros (A & B & C & D). unfold cap_run. destruct sched as [sc|]; [|repeat split; assumption].
  destruct (ls_active (Some sc) m); [|repeat split; assumption]. unfold same_setup. cbn. rewrite A, B, C, D. auto.
Qed.

Lemma values_setup K s s' b sched m slope fract : shared_sizing K -> same_setup s s' ->
  size_values K s b sched m slope fract = size_values K s' b sched m slope fract.
Proof.
  intros HK H. rewrite (setup_eq _ _ H). destruct s as [a1 a2 a3 a4 a5 a6 a7]. cbn [dh_supply dh_storage dh_run dh_defrost].
  destruct HK; reflexivity.
Qed.

Definition results (s : dhw) : option Q * option Q * option Q := (dh_min_cap s, dh_min_stor s, dh_slope s).

(** One sizing: on every system with the same settings it stores the same figures, or none. *)
Lemma size_either K p s lib b sched m slope fract : shared_sizing K -> same_setup p s ->
  let s' := fst (fst (dhw_size K lib s b sched m slope fract)) in
  let p' := fst (fst (dhw_size K lib p b sched m slope fract)) in
  (results s' = results s /\ results p' = results p) \/
  (exists cap stor, results s' = (Some cap, Some stor, Some slope) /\ results p' = (Some cap, Some stor, Some slope)).
Proof.
  intros HK H. cbv zeta. unfold dhw_size. destruct (if bd_is_annual b then bd_set_daily lib b else Ok b) as [b1|e]; [|left; auto].
  unfold size_try. rewrite <- (values_setup K _ _ b1 sched m slope fract HK (cap_run_setup _ _ sched m H)).
  assert (R : forall x y o (w : res (list (string * warning))), results (fst (fst (match w with
     | Err e => (dh_set_run x o, b1, @Err (list (string*warning)) e)
     | Ok w0 => if bd_is_annual b then match bd_set_annual lib b1 with Err e => (dh_set_run x o, b1, Err e) | Ok b2 => (dh_set_run x o, b2, Ok w0) end
                else (dh_set_run x o, b1, Ok w0) end))) = results y <-> results x = results y).
  { intros x y o w. destruct w as [w|e]; [|reflexivity]. destruct (bd_is_annual b); [|reflexivity]. destruct (bd_set_annual lib b1); reflexivity. }
  assert (C : forall x, results (cap_run x sched m) = results x).
  { intro x. unfold cap_run. destruct sched; [|reflexivity]. destruct (ls_active _ m); reflexivity. }
  destruct (size_values K (cap_run p sched m) b1 sched m slope fract) as [[cap stor]|e].
  - right. exists cap, stor. split; apply (R _ (dh_set_results p cap stor slope)); reflexivity.
  - left. split; [exact (C s)|exact (C p)].
Qed.

Lemma after_setup K s c : same_setup s (after K s c).
Proof.
  destruct c as [lib b sched m slope fract|lib b m slope step|lib icdf b sched m slope p]; cbn [after].
  - destruct (dhw_size K lib s b sched m slope fract) as [[s' b'] o] eqn:E. cbn [fst].
    destruct (size_fields _ _ _ _ _ _ _ _ _ _ _ E) as (A & B & C & D). unfold same_setup. auto.
  - unfold sizing_curve. destruct (if bd_is_annual b then bd_set_daily lib b else Ok b) as [b1|e]; [|repeat split].
    pose proof (curve_body_state K s b1 m slope step) as S. destruct (curve_body K s b1 m slope step) as [s2 o]. cbn [fst] in S. subst s2.
    destruct (restore_annual lib (bd_is_annual b) b1 o) as [b2 o2]. repeat split.
  - unfold ls_sizing_curve. destruct m as [d|]; [|repeat split]. destruct (negb (dict_has d "shed")); [repeat split|].
    destruct (if bd_is_annual b then bd_set_daily lib b else Ok b) as [b1|e]; [|repeat split].
    destruct (restore_annual _ _ _ _) as [b2 o2]. repeat split.
Qed.
Lemma after_curve K s c : match c with CallSize _ _ _ _ _ _ => True | _ => after K s c = s end.
Proof.
  destruct c as [lib b sched m slope fract|lib b m slope step|lib icdf b sched m slope p]; cbn [after]; [exact I| |].
  - unfold sizing_curve. destruct (if bd_is_annual b then bd_set_daily lib b else Ok b) as [b1|e]; [|reflexivity].
    pose proof (curve_body_state K s b1 m slope step) as S. destruct (curve_body K s b1 m slope step) as [s2 o]. cbn [fst] in S. subst s2.
    destruct (restore_annual lib (bd_is_annual b) b1 o) as [b2 o2]. reflexivity.
  - unfold ls_sizing_curve. destruct m as [d|]; [|reflexivity]. destruct (negb (dict_has d "shed")); [reflexivity|].
    destruct (if bd_is_annual b then bd_set_daily lib b else Ok b) as [b1|e]; [|reflexivity].
    destruct (restore_annual _ _ _ _) as [b2 o2]. cbn [fst]. rewrite dh_set_run_twice. apply dh_set_run_same.
Qed.

(** One call, on a system with the settings of the new system [p]. *)
Lemma after_either K p s c : shared_sizing K -> same_setup p s -> results p = (None, None, None) ->
  (results (after K s c) = results s /\ results (after K p c) = (None, None, None)) \/
  (exists cap stor slope, results (after K s c) = (Some cap, Some stor, Some slope) /\
                          results (after K p c) = (Some cap, Some stor, Some slope)).
Proof.
  intros HK H P. pose proof (after_curve K s c) as A. pose proof (after_curve K p c) as A'.
  destruct c as [lib b sched m slope fract|lib b m slope step|lib icdf b sched m slope q].
  - destruct (size_either K p s lib b sched m slope fract HK H) as [[X Y]|(cap & stor & X & Y)].
    + left. split; [exact X|]. cbn [after]. rewrite Y. exact P.
    + right. exists cap, stor, slope. auto.
  - rewrite A, A'. left. auto.
  - rewrite A, A'. left. auto.
Qed.

Lemma setup_trans a b c : same_setup a b -> same_setup b c -> same_setup a c.
Proof. unfold same_setup. intros (A & B & C & D) (A' & B' & C' & D'). repeat split; congruence. Qed.
Lemma session_setup K cs : forall s, same_setup s (session K s cs).
Proof.
  induction cs as [|c cs IH]; intro s; [repeat split|]. cbn [session fold_left].
  eapply setup_trans; [apply (after_setup K s c)|apply IH].
Qed.

(** Any reading of the three stored results that raises on the empty one. *)
Lemma session_last {B} (get : option Q * option Q * option Q -> res B) K p cs : shared_sizing K -> results p = (None, None, None) ->
  get (None, None, None) = Err RuntimeError -> (forall a b c, exists x, get (Some a, Some b, Some c) = Ok x) ->
  forall s, same_setup p s ->
  get (results (session K s cs)) =
  match last_answer (fun c => get (results (after K p c))) cs with Ok x => Ok x | Err _ => get (results s) end.
Proof.
  intros HK P G0 G1. induction cs as [|c cs IH]; intros s H; [reflexivity|]. cbn [session fold_left last_answer].
  fold (session K (after K s c) cs). rewrite (IH _ (setup_trans _ _ _ H (after_setup K s c))).
  destruct (last_answer _ cs) as [x|e]; [reflexivity|].
  destruct (after_either K p s c HK H P) as [[X Y]|(cap & stor & slope & X & Y)].
  - rewrite X, Y, G0. reflexivity.
  - rewrite X, Y. destruct (G1 cap stor slope) as [x ->]. reflexivity.
Qed.
Lemma last_answer_error {A B} (f : A -> res B) l : (forall c, f c = Err RuntimeError \/ exists x, f c = Ok x) ->
  last_answer f l = Err RuntimeError \/ exists x, last_answer f l = Ok x.
Proof.
  intro H. induction l as [|c l IH]; [left; reflexivity|]. cbn [last_answer].
  destruct IH as [->|[x ->]]; [apply H|right; eauto].
Qed.

(** ** Swing systems *)

Definition same_swing (s s' : swing) : Prop :=
  same_setup (sw_dhw s) (sw_dhw s') /\ sw_return s = sw_return s' /\ sw_flow s = sw_flow s' /\ sw_safety s = sw_safety s'.
Definition tm_results (s : swing) : option Q * option Q * option Q := (sw_tm_vol s, sw_tm_ca s, sw_tm_cap s).

Lemma swing_eq s s' : same_swing s s' -> exists x y z mix v a c,
  s' = mkSwing (mkDhw (dh_supply (sw_dhw s)) (dh_storage (sw_dhw s)) (dh_run (sw_dhw s)) (dh_defrost (sw_dhw s)) x y z)
        (sw_return s) (sw_flow s) (sw_safety s) mix v a c.
Proof.
  destruct s as [d r f sf mix v a c], s' as [d' r' f' sf' mix' v' a' c']. unfold same_swing. cbn.
  intros (H & -> & -> & ->). rewrite (setup_eq _ _ H). repeat eexists.
Qed.

Lemma try_either p s b sched m slope fract : same_swing p s ->
  let s' := fst (swing_size_try s b sched m slope fract) in
  let p' := fst (swing_size_try p b sched m slope fract) in
  snd (swing_size_try s b sched m slope fract) = snd (swing_size_try p b sched m slope fract) /\
  same_swing s s' /\
  (results (sw_dhw s') = results (sw_dhw s) /\ results (sw_dhw p') = results (sw_dhw p) \/
   exists cap stor, results (sw_dhw s') = (Some cap, Some stor, Some slope) /\ results (sw_dhw p') = (Some cap, Some stor, Some slope)) /\
  (tm_results s' = tm_results s /\ tm_results p' = tm_results p \/
   exists v a c, tm_results s' = (Some v, Some a, Some c) /\ tm_results p' = (Some v, Some a, Some c)).
Proof.
  intro H. destruct (swing_eq _ _ H) as (x & y & z & mix & v & a & c & ->). destruct p as [[t1 t2 t3 t4 x0 y0 z0] r f sf mix0 v0 a0 c0].
  cbn [sw_dhw sw_return sw_flow sw_safety dh_supply dh_storage dh_run dh_defrost]. cbv zeta. unfold swing_size_try.
  destruct (design_inlet b) as [inlet|e]; [|cbn; repeat split; left; split; reflexivity].
  set (p0 := mkSwing (mkDhw t1 t2 t3 t4 x0 y0 z0) r f sf mix0 v0 a0 c0).
  set (s0 := mkSwing (mkDhw t1 t2 t3 t4 x y z) r f sf mix v a c).
  unfold size_tm. change (tm_vol_required s0 b) with (tm_vol_required p0 b).
  destruct (tm_vol_required p0 b) as [tv|e]; cbn [bind]; [|repeat split; left; split; reflexivity].
  destruct (qltb 1250 tv); [repeat split; left; split; reflexivity|].
  destruct (table_pick swing_table tv) as [vol|e]; cbn [bind]; [|repeat split; left; split; reflexivity].
  destruct (if qltb vol 480 then table_pick swing_table_ca tv else Ok 480) as [ca|e]; cbn [bind]; [|repeat split; left; split; reflexivity].
  change (sw_safety s0 * (sw_loss s0 * 1000) / 1000) with (sw_safety p0 * (sw_loss p0 * 1000) / 1000).
  set (tc := sw_safety p0 * (sw_loss p0 * 1000) / 1000).
  set (p2 := sw_set_mix (sw_set_tm p0 vol ca tc) 1). set (s2 := sw_set_mix (sw_set_tm s0 vol ca tc) 1).
  change (swing_running s2 b) with (swing_running p2 b).
  destruct (swing_running p2 b) as [[mo rv]|e].
  2:{ cbn [fst snd]. split; [reflexivity|]. split; [repeat split|]. split; [left; split; reflexivity|]. right. exists vol, ca, tc. split; reflexivity. }
  assert (E : forall g, (forall d1 d2, same_setup d1 d2 -> g d1 = g d2 :> res Q) -> g (sw_dhw (apply_mix s2 mo)) = g (sw_dhw (apply_mix p2 mo))).
  { intros g G. apply G. destruct mo; repeat split. }
  set (T := fun q => do f0 <- strat_factor (sw_dhw (apply_mix q mo)) m slope inlet;
           do stor <- storage_volume rv f0;
           do cap <- swing_capacity (apply_mix q mo) b;
           match sched, m with
           | Some sc, Some d => if ls_active sched m then swing_size_ls (apply_mix q mo) b sc d slope fract inlet cap stor
              else Ok (sw_set_dhw (apply_mix q mo) (dh_set_results (sw_dhw (apply_mix q mo)) cap stor slope))
           | _, _ => Ok (sw_set_dhw (apply_mix q mo) (dh_set_results (sw_dhw (apply_mix q mo)) cap stor slope)) end).
  assert (TT : T s2 = T p2).
  { unfold T. destruct mo; reflexivity. }
  change (let s' := fst (match T s2 with Err e => (apply_mix s2 mo, Err e) | Ok s4 => (s4, Ok tt) end) in
          let p' := fst (match T p2 with Err e => (apply_mix p2 mo, Err e) | Ok s4 => (s4, Ok tt) end) in
          snd (match T s2 with Err e => (apply_mix s2 mo, Err e) | Ok s4 => (s4, Ok tt) end) =
          snd (match T p2 with Err e => (apply_mix p2 mo, Err e) | Ok s4 => (s4, Ok tt) end) /\
  same_swing s0 s' /\
  (results (sw_dhw s') = results (sw_dhw s0) /\ results (sw_dhw p') = results (sw_dhw p0) \/
   exists cap stor, results (sw_dhw s') = (Some cap, Some stor, Some slope) /\ results (sw_dhw p') = (Some cap, Some stor, Some slope)) /\
  (tm_results s' = tm_results s0 /\ tm_results p' = tm_results p0 \/
   exists v a c, tm_results s' = (Some v, Some a, Some c) /\ tm_results p' = (Some v, Some a, Some c))).
  rewrite <- TT. destruct (T s2) as [s4|e] eqn:ET; cbv zeta; cbn [fst snd].
  - split; [reflexivity|].
    assert (F : same_swing s0 s4 /\ (exists cap stor, results (sw_dhw s4) = (Some cap, Some stor, Some slope)) /\ tm_results s4 = (Some vol, Some ca, Some tc)).
    { unfold T in ET. destruct (strat_factor _ m slope inlet) as [f0|]; [|discriminate]. cbn [bind] in ET.
      destruct (storage_volume rv f0) as [stor|]; [|discriminate]. cbn [bind] in ET.
      destruct (swing_capacity _ b) as [cap|]; [|discriminate]. cbn [bind] in ET.
      assert (G : forall k st x, s4 = sw_set_dhw (apply_mix s2 mo) (dh_set_results (sw_dhw (apply_mix s2 mo)) k st slope) \/
                  s4 = sw_set_mix (sw_set_dhw (apply_mix s2 mo) (dh_set_results (sw_dhw (apply_mix s2 mo)) k st slope)) x ->
          same_swing s0 s4 /\ (exists cap stor, results (sw_dhw s4) = (Some cap, Some stor, Some slope)) /\ tm_results s4 = (Some vol, Some ca, Some tc)).
      { intros k st q [->| ->]; destruct mo; (split; [repeat split|]; split; [exists k, st; reflexivity|reflexivity]). }
      assert (N : Ok (sw_set_dhw (apply_mix s2 mo) (dh_set_results (sw_dhw (apply_mix s2 mo)) cap stor slope)) = Ok s4 ->
          same_swing s0 s4 /\ (exists cap stor, results (sw_dhw s4) = (Some cap, Some stor, Some slope)) /\ tm_results s4 = (Some vol, Some ca, Some tc)).
      { intro X. apply (G cap stor 0). left. congruence. }
      destruct sched as [sc|]; [|exact (N ET)]. destruct m as [d|]; [|exact (N ET)].
      destruct (ls_active (Some sc) (Some d)); [|exact (N ET)].
      unfold swing_size_ls in ET. destruct (swing_gen_ls _ sc d b slope fract) as [g|] eqn:EG; [|discriminate]. cbn [bind] in ET.
      destruct (swing_capacity_of _ b _) as [lcap|]; [|discriminate]. cbn [bind] in ET.
      destruct (swing_running_ls _ sc b g fract) as [[lrv lmix]|]; [|discriminate]. cbn [bind] in ET.
      destruct (storage_volume_ls _ lrv d slope inlet) as [lstor|]; [|discriminate]. cbn [bind] in ET. cbv zeta in ET.
      destruct (qltb stor lstor).
      - apply (G (qmax cap lcap) lstor lmix). right. congruence.
      - apply (G (qmax cap lcap) stor 0). left. congruence. }
    destruct F as (F1 & (cap & stor & F2) & F3). split; [exact F1|]. split; [right; exists cap, stor; auto|]. right. exists vol, ca, tc. auto.
  - split; [reflexivity|]. split; [destruct mo; repeat split|]. split; [left; destruct mo; split; reflexivity|].
    right. exists vol, ca, tc. destruct mo; split; reflexivity.
Qed.

Lemma swing_trans a b c : same_swing a b -> same_swing b c -> same_swing a c.
Proof. intros (A & B & C & D) (A' & B' & C' & D'). split; [exact (setup_trans _ _ _ A A')|]. repeat split; congruence. Qed.

Lemma swing_size_either p s lib b sched m slope fract : same_swing p s ->
  let s' := fst (fst (swing_size lib s b sched m slope fract)) in
  let p' := fst (fst (swing_size lib p b sched m slope fract)) in
  same_swing s s' /\
  (results (sw_dhw s') = results (sw_dhw s) /\ results (sw_dhw p') = results (sw_dhw p) \/
   exists cap stor, results (sw_dhw s') = (Some cap, Some stor, Some slope) /\ results (sw_dhw p') = (Some cap, Some stor, Some slope)) /\
  (tm_results s' = tm_results s /\ tm_results p' = tm_results p \/
   exists v a c, tm_results s' = (Some v, Some a, Some c) /\ tm_results p' = (Some v, Some a, Some c)).
Proof.
  intro H. cbv zeta. unfold swing_size. destruct (if bd_is_annual b then bd_set_daily lib b else Ok b) as [b1|e].
  2:{ cbn [fst]. split; [repeat split|]. split; left; auto. }
  assert (H0 : same_swing (sw_set_dhw p (cap_run (sw_dhw p) sched m)) (sw_set_dhw s (cap_run (sw_dhw s) sched m))).
  { destruct H as (A & B & C & D). split; [apply cap_run_setup; exact A|]. auto. }
  assert (C : forall x, results (cap_run x sched m) = results x).
  { intro x. unfold cap_run. destruct sched; [|reflexivity]. destruct (ls_active _ m); reflexivity. }
  pose proof (try_either _ _ b1 sched m slope fract H0) as T. cbv zeta in T.
  destruct (swing_size_try (sw_set_dhw s (cap_run (sw_dhw s) sched m)) b1 sched m slope fract) as [s2 o].
  destruct (swing_size_try (sw_set_dhw p (cap_run (sw_dhw p) sched m)) b1 sched m slope fract) as [p2 o'].
  cbn [fst snd] in T. destruct T as (<- & S & R & TM).
  assert (X : forall q r (o : res unit), fst (fst (match o with
     | Err e => (sw_set_run q r, b1, @Err unit e)
     | Ok w0 => if bd_is_annual b then match bd_set_annual lib b1 with Err e => (sw_set_run q r, b1, Err e) | Ok b2 => (sw_set_run q r, b2, Ok w0) end
                else (sw_set_run q r, b1, Ok w0) end)) = sw_set_run q r).
  { intros q r w. destruct w as [w|e]; [|reflexivity]. destruct (bd_is_annual b); [|reflexivity]. destruct (bd_set_annual lib b1); reflexivity. }
  rewrite !X. cbn [sw_set_dhw sw_dhw] in R.
  assert (RR : forall q r, results (sw_dhw (sw_set_run q r)) = results (sw_dhw q)) by reflexivity. rewrite !RR, !C in *.
  split.
  - destruct S as (S1 & S2 & S3 & S4). split; [|split; [exact S2|split; [exact S3|exact S4]]].
    unfold same_setup in *. cbn [sw_set_run sw_set_dhw sw_dhw dh_set_run dh_supply dh_storage dh_run dh_defrost] in *.
    destruct S1 as (A1 & A2 & A3 & A4). unfold cap_run in A1, A2, A4. repeat split.
    + rewrite <- A1. destruct sched; [|reflexivity]. destruct (ls_active _ m); reflexivity.
    + rewrite <- A2. destruct sched; [|reflexivity]. destruct (ls_active _ m); reflexivity.
    + rewrite <- A4. destruct sched; [|reflexivity]. destruct (ls_active _ m); reflexivity.
  - split; [exact R|exact TM].
Qed.

Lemma swing_curve_same lib s b m slope step : exists mix, fst (fst (swing_sizing_curve lib s b m slope step)) = sw_set_mix s mix.
Proof.
  unfold swing_sizing_curve. assert (Z : s = sw_set_mix s (sw_eff_mix s)) by (destruct s; reflexivity).
  destruct (if bd_is_annual b then bd_set_daily lib b else Ok b) as [b1|e]; [|exists (sw_eff_mix s); exact Z].
  destruct (swing_curve_body s b1 m slope step) as [s2 o] eqn:CB.
  destruct (restore_annual lib (bd_is_annual b) b1 o) as [b2 o2]. cbn [fst]. unfold swing_curve_body in CB.
  match type of CB with match ?X with _ => _ end = _ => destruct X as [[[f a1] a2]|e] end.
  - destruct (swing_curve_loop s b1 f (a1 ++ a2)) as [s3 o3] eqn:L. inversion CB; subst.
    destruct (curve_loop_state_sw _ _ _ _ _ _ L) as (r & mix & ->). exists mix. destruct s as [[] ? ? ? ? ? ? ?]; reflexivity.
  - inversion CB; subst. exists (sw_eff_mix s2). exact Z.
Qed.

Lemma swing_after_either p s c : same_swing p s ->
  same_swing s (swing_after s c) /\
  (results (sw_dhw (swing_after s c)) = results (sw_dhw s) /\ results (sw_dhw (swing_after p c)) = results (sw_dhw p) \/
   exists cap stor slope, results (sw_dhw (swing_after s c)) = (Some cap, Some stor, Some slope) /\
     results (sw_dhw (swing_after p c)) = (Some cap, Some stor, Some slope)) /\
  (tm_results (swing_after s c) = tm_results s /\ tm_results (swing_after p c) = tm_results p \/
   exists v a k, tm_results (swing_after s c) = (Some v, Some a, Some k) /\ tm_results (swing_after p c) = (Some v, Some a, Some k)).
Proof.
  intro H. destruct c as [lib b sched m slope fract|lib b m slope step]; cbn [swing_after].
  - destruct (swing_size_either p s lib b sched m slope fract H) as (A & [B|(cap & stor & B)] & C).
    + split; [exact A|]. split; [left; exact B|exact C].
    + split; [exact A|]. split; [right; exists cap, stor, slope; exact B|exact C].
  - destruct (swing_curve_same lib s b m slope step) as [mix ->]. destruct (swing_curve_same lib p b m slope step) as [mix' ->].
    split; [repeat split|]. split; left; split; reflexivity.
Qed.

Lemma swing_session_last {B} (view : swing -> option Q * option Q * option Q) (get : option Q * option Q * option Q -> res B) p cs :
  view = (fun s => results (sw_dhw s)) \/ view = tm_results ->
  view p = (None, None, None) ->
  get (None, None, None) = Err RuntimeError -> (forall a b c, exists x, get (Some a, Some b, Some c) = Ok x) ->
  forall s, same_swing p s ->
  get (view (swing_session s cs)) =
  match last_answer (fun c => get (view (swing_after p c))) cs with Ok x => Ok x | Err _ => get (view s) end.
Proof.
  intros V P G0 G1. induction cs as [|c cs IH]; intros s H; [reflexivity|]. cbn [swing_session fold_left last_answer].
  destruct (swing_after_either p s c H) as (SS & R & T).
  fold (swing_session (swing_after s c) cs). rewrite (IH _ (swing_trans _ _ _ H SS)).
  destruct (last_answer _ cs) as [x|e]; [reflexivity|].
  assert (E : (view (swing_after s c) = view s /\ view (swing_after p c) = (None, None, None)) \/
     exists a b k, view (swing_after s c) = (Some a, Some b, Some k) /\ view (swing_after p c) = (Some a, Some b, Some k)).
  { destruct V as [-> | ->]; rewrite <- P; assumption. }
  destruct E as [[X Y]|(a & b & k & X & Y)].
  - rewrite X, Y, G0. reflexivity.
  - rewrite X, Y. destruct (G1 a b k) as [x ->]. reflexivity.
Qed.
