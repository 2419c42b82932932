(** C88: which factory is usable for which class of system, and the placeholder classes. *)
From Verif Require Import Prelude M_Building M_Heater M_Sizing M_SimRun M_Step M_Session M_Factory S_Factory.

(** A call goes through exactly when every keyword is a parameter and every required parameter is
    given; otherwise TypeError. *)
Theorem C88_keywords : forall sg kw,
  (bind_kw sg kw = Ok tt <->
   (forall k, In k kw -> exists r, In (k, r) sg) /\ (forall p, In (p, true) sg -> In p kw)) /\
  (bind_kw sg kw <> Ok tt -> bind_kw sg kw = Err TypeError).
Proof.
  intros sg kw. unfold bind_kw.
  match goal with |- context [if ?b then _ else _] => destruct b eqn:E end.
  - split; [|congruence]. split; [|reflexivity]. intros _. apply andb_true_iff in E. destruct E as [E1 E2].
    rewrite forallb_forall in E1, E2. split.
    + intros k Hk. specialize (E1 k Hk). apply existsb_exists in E1. destruct E1 as ([p r] & Hp & Ep).
      cbn in Ep. apply String.eqb_eq in Ep. subst. eauto.
    + intros p Hp. specialize (E2 _ Hp). cbn in E2. apply existsb_exists in E2. destruct E2 as (x & Hx & Ex).
      apply String.eqb_eq in Ex. subst. exact Hx.
  - split; [|reflexivity]. split; [discriminate|]. intros [H1 H2]. exfalso.
    apply Bool.not_true_iff_false in E. apply E. apply andb_true_iff. split; apply forallb_forall.
    + intros k Hk. destruct (H1 k Hk) as [r Hr]. apply existsb_exists. exists (k, r). split; [exact Hr|].
      apply String.eqb_refl.
    + intros [p [|]] Hp; [|reflexivity]. cbn. apply existsb_exists. exists p. split; [apply H2; exact Hp|].
      apply String.eqb_refl.
Qed.
Print Assumptions C88_keywords.

(** [from_size] gets as far as sizing exactly in the classes that implement it; in the placeholder
    and intermediate classes the inherited factory always raises TypeError. *)
Theorem C88_from_size : forall c,
  (In c sizable -> from_size_calls c = Ok tt) /\ (~ In c sizable -> from_size_calls c = Err TypeError).
Proof.
  intro c. destruct c; split; intro H; try reflexivity; exfalso; cbn in H; intuition discriminate.
Qed.
Print Assumptions C88_from_size.

(** [from_components], inherited by every class, is usable only for the plain system and for the
    swing system with resistance trade-off, which defines its own: the other recirculation,
    return-to-primary and instantaneous classes raise TypeError whatever components are given. *)
Theorem C88_from_components : forall c vol hs supply storage run defrost slope,
  (c = CDhw \/ c = CSwingER -> from_components_calls c = Ok tt) /\
  (c <> CDhw -> c <> CSwingER ->
   class_from_components c vol hs supply storage run defrost slope = Err TypeError).
Proof.
  intros c vol hs supply storage run defrost slope. split.
  - intros [->| ->]; reflexivity.
  - intros N1 N2. destruct c; try congruence; reflexivity.
Qed.
Print Assumptions C88_from_components.

(** The documented factory, expected of every system class, fails for classes that can be sized and
    simulated. *)
Theorem C88_from_components_refuted : exists c, In c sizable /\
  forall vol hs supply storage run defrost slope,
    class_from_components c vol hs supply storage run defrost slope = Err TypeError.
Proof. exists CSinglePass. split; [cbn; tauto|]. reflexivity. Qed.
Print Assumptions C88_from_components_refuted.

(** A placeholder class accepts [size] silently: however often it is called, on whatever buildings,
    nothing is raised, the building and the system are as before, and the results still cannot be
    read. *)
Theorem C88_placeholder_size : forall supply storage run defrost bs b,
  let s := after_sizes (dhw_new supply storage run defrost) bs in
  s = dhw_new supply storage run defrost /\
  stub_size s b = (s, b, Ok tt) /\
  get_capacity s = Err RuntimeError /\ get_storage s = Err RuntimeError.
Proof.
  intros supply storage run defrost bs b. cbv zeta.
  assert (E : forall bs s, after_sizes s bs = s).
  { clear. induction bs as [|b bs IH]; intro s; [reflexivity|]. cbn. apply IH. }
  rewrite E. repeat split.
Qed.
Print Assumptions C88_placeholder_size.

(** A system of a placeholder class cannot be simulated: every accepted duration raises TypeError at
    the first step, whatever the state and whatever the step would do. *)
Theorem C88_placeholder_simulation : forall c St (real : St -> Z -> Z -> res (St * step_out)) s0 supply dur thr maxm tm,
  In c placeholders ->
  class_simulate c real s0 supply dur thr maxm tm =
  Err (if String.eqb dur "3day" || String.eqb dur "annual" then TypeError else ValueError)%bool.
Proof.
  intros c St real s0 supply dur thr maxm tm H.
  assert (K : forall s i iv, keyword_step c real s i iv = Err TypeError).
  { intros. cbn in H. destruct H as [<-|[<-|[<-|[<-|[]]]]]; reflexivity. }
  assert (L : forall n i s r, sim_loop (keyword_step c real) supply (S n) i s r = Err TypeError).
  { intros. cbn [sim_loop]. rewrite K. reflexivity. }
  unfold class_simulate, simulate, sim_times.
  destruct (String.eqb dur "3day"); cbn [bind orb].
  { change (4320 / 1)%Z with (Z.of_nat 1 + 4319)%Z. rewrite Z2Nat.inj_add by lia. rewrite Nat2Z.id. apply L. }
  destruct (String.eqb dur "annual"); cbn [bind]; [|reflexivity].
  change (525600 / 10)%Z with (Z.of_nat 1 + 52559)%Z. rewrite Z2Nat.inj_add by lia. rewrite Nat2Z.id. apply L.
Qed.
Print Assumptions C88_placeholder_simulation.

(** The implemented classes are simulated as they are modelled. *)
Theorem C88_simulated : forall c St (real : St -> Z -> Z -> res (St * step_out)) s i iv,
  ~ In c placeholders -> keyword_step c real s i iv = real s i iv.
Proof.
  intros c St real s i iv H. destruct c; try reflexivity; exfalso; apply H; cbn; tauto.
Qed.
Print Assumptions C88_simulated.

Example C88_case :
  In CSwing sizable /\ ~ In CSwing placeholders /\ In CSPInSeries placeholders /\
  bind_kw (init_sig CSinglePass) (four ++ ret2) = Ok tt /\
  bind_kw (init_sig CSinglePass) four = Err TypeError /\
  bind_kw (init_sig CMPNoRecirc) (four ++ run2) = Err TypeError.
Proof.
  split; [cbn; tauto|]. split; [cbn; intuition discriminate|]. split; [cbn; tauto|].
  repeat split.
Qed.
